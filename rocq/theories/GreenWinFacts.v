(** Greenlets that share a Windows executer, and the SG_IO executer. *)
From Coq Require Import ZArith List Bool Lia Permutation PeanoNat.
From Verif Require Import Base BaseFacts Gen SpecGen GenFacts Executer SpecCall ExecFacts ExecGenFacts ExecStepFacts
  OsCommon OsLinux OsSolaris OsAix OsWin32 SpecSg SpecDrivers SpecSession OsFacts LinuxFacts SolarisFacts AixFacts WinFacts SpecConc ConcFacts
  SessionFacts SpecQueue QueueFacts Greenlet SpecGreen GreenFacts.
Import ListNotations.
Open Scope Z_scope.

Lemma results_logged : forall R W h (s s' : executer R W) x rp, cb_log s' = cb_log s ++ [(x, rp)] ->
  results_of h s' = results_of h s ++ (if Nat.eqb x h then [rp] else []).
Proof. intros R W h s s' x rp H. unfold results_of. rewrite H, filter_app, map_app. cbn. destruct (Nat.eqb x h); reflexivity. Qed.

Section Windows.
Context {T A : Type} (sense_of : bytes -> result unit) (tgt : target T) (max b : Z) (count : nat) (cmd : nat -> scsi_command) (t0 : T).
Notation ex := (executer spt (win_world (T * nat))).
Notation os := (win_os (A := A) sense_of (friendly_win (honest_win tgt))).
Notation out := (outcome ex (dval (wire unit A))).
Context (Hmax : 1 <= max) (Hcount : Z.of_nat count <= max) (Hfits : forall h, (h < count)%nat -> win_fits (cmd h))
  (Hok : win_intelligible sense_of tgt).

Record wreq : Type := Wreq { v_req : spt; v_hdr : spt_hdr; v_before : heap; v_after : heap; v_ans : answer }.
Inductive wphase : Type := WFresh | WHeld (w : wreq) | WDone (o : out) (turns : nat).
Definition wgreen (h : nat) (p : wphase) : green :=
  match p with
  | WFresh => Ready (coroutine_init (call os h (cmd h)))
  | WHeld w => Ready (Cor [win_send_append (v_req w); send_tail (packet_id (v_req w)); call_loop os h]
      (VData (DInt (zlen (a_data (v_ans w))))) (RVal (VData (DInt (zlen (a_data (v_ans w)))))))
  | WDone o _ => Over o
  end.
Definition rank (p : wphase) : nat := match p with WFresh => 0 | WHeld _ => 1 | WDone _ k => k end.
Definition wupd (ph : nat -> wphase) (h : nat) (p : wphase) : nat -> wphase := fun x => if Nat.eqb x h then p else ph x.
Lemma wupd_same : forall ph h p, wupd ph h p h = p.
Proof. intros. unfold wupd. rewrite Nat.eqb_refl. reflexivity. Qed.
Lemma wupd_other : forall ph h p x, x <> h -> wupd ph h p x = ph x.
Proof. intros. unfold wupd. apply Nat.eqb_neq in H. rewrite H. reflexivity. Qed.

Notation order_answers order := (snd (answers tgt cmd order t0)).
Lemma answers_snoc : forall order t h, answers tgt cmd (order ++ [h]) t =
  (let (t1, a) := tgt (fst (answers tgt cmd order t)) (command_of (cmd h)) (data_out (cmd h)) in (t1, snd (answers tgt cmd order t) ++ [(h, a)])).
Proof.
  induction order as [|x order IH]; intros t h; cbn [app answers].
  - cbn [fst snd]. destruct (tgt t (command_of (cmd h)) (data_out (cmd h))). reflexivity.
  - destruct (tgt t (command_of (cmd x)) (data_out (cmd x))) as [t1 a]. rewrite IH. destruct (answers tgt cmd order t1) as [t2 l]. cbn [fst snd].
    destruct (tgt t2 (command_of (cmd h)) (data_out (cmd h))). reflexivity.
Qed.

Record held (s : ex) (order : list nat) (h : nat) (w : wreq) : Prop := Held {
  hd_place : exists i, nth_error order i = Some h /\ packet_id (v_req w) = (b + Z.of_nat i) mod max;
  hd_get : dict_get (packet_id (v_req w)) (pending s) = Some (v_req w, Some h);
  hd_res : results_of h s = [];
  hd_ans : In (h, v_ans w) (order_answers order);
  hd_ok : a_status (v_ans w) = 2 -> sense_of (pad 255 (a_sense (v_ans w))) = Ok tt;
  hd_host : a_host (v_ans w) = 0;
  hd_create : spt_create (cmd h) (v_before w) = Ok (v_after w, v_hdr w, spt_data (v_req w));
  hd_obj : nth_error (w_objs (world s)) (spt_obj (v_req w)) = Some (spt_done (v_hdr w) (v_ans w));
  hd_mem : forall p, spt_data (v_req w) = Some p -> (p < length (w_heap (world s)))%nat /\
    nth_error (w_heap (world s)) p = nth_error (spt_mem (v_hdr w) (v_ans w) (v_after w)) p
}.
Record winv (s : ex) (order : list nat) (ph : nat -> wphase) : Prop := Winv {
  n_max : max_queue_size s = max;
  n_index : packet_index s = (b + Z.of_nat (length order)) mod max;
  n_incoming : incoming_packets (world s) = [];
  n_dev : exists k, w_dev (world s) = (fst (answers tgt cmd order t0), k);
  n_nodup : NoDup order;
  n_small : forall h, In h order -> (h < count)%nat;
  n_keys : NoDup (map fst (pending s));
  n_keysE : forall k, In k (map fst (pending s)) -> exists i, (i < length order)%nat /\ k = (b + Z.of_nat i) mod max;
  n_fresh : forall h, ph h = WFresh -> (h < count)%nat /\ ~ In h order /\ results_of h s = [];
  n_held : forall h w, ph h = WHeld w -> held s order h w;
  n_done : forall h o k, ph h = WDone o k -> (h < count)%nat -> exists a, In (h, a) (order_answers order) /\ o = win_verdict (cmd h) a /\ k = win_turns a
}.

Lemma wcall_resume : forall h v (s : ex), resume (call_loop os h) (Send v) s =
  match results_of h s with
  | [] => (s, Yield (YGen (process_pending_response os)) (call_loop os h))
  | RespExn e :: _ => (s, Raise e)
  | RespData d :: _ => (s, Yield (YVal (val_of_data d)) process_end)
  end.
Proof. intros. rewrite call_loop_unfold at 1. reflexivity. Qed.
Lemma wcall_throw : forall h e (s : ex), resume (call_loop os h) (Throw e) s = (s, Raise e).
Proof. intros. rewrite call_loop_unfold at 1. reflexivity. Qed.

Lemma slots_apart : forall i j, (i < count)%nat -> (j < count)%nat -> (b + Z.of_nat i) mod max = (b + Z.of_nat j) mod max -> i = j.
Proof.
  intros i j Li Lj F. assert (b + Z.of_nat i = b + Z.of_nat j); [|lia]. apply (residues_distinct max _ _ (b + max)); first [exact F|lia].
Qed.
Lemma order_few : forall s order ph, winv s order ph -> (length order <= count)%nat.
Proof.
  intros s order ph I. rewrite <- (seq_length count 0). apply NoDup_incl_length; [apply (n_nodup _ _ _ I)|].
  intros x Hx. apply in_seq. pose proof (n_small _ _ _ I x Hx). lia.
Qed.
Lemma put_obj_new : forall X (l : list X) x y, put_obj (length l) y (l ++ [x]) = l ++ [y].
Proof. induction l; intros; cbn; f_equal; auto. Qed.

Lemma start_win : forall s order ph h, winv s order ph -> ph h = WFresh ->
  exists s1 p, segment win_sleeps (coroutine_init (call os h (cmd h))) s s1 (wgreen h p) /\ winv s1 (order ++ [h]) (wupd ph h p) /\ rank p = 1%nat.
Proof.
  intros s order ph h I Hph. destruct (n_fresh _ _ _ I h Hph) as (Hh & Hnew & Hres).
  destruct (n_dev _ _ _ I) as [kd Hdev].
  assert (Hlt : (length order < count)%nat).
  { assert (length (h :: order) <= length (seq 0 count))%nat as L.
    - apply NoDup_incl_length; [constructor; [exact Hnew|apply (n_nodup _ _ _ I)]|].
      intros x [<-|Hx]; apply in_seq; [lia|]. pose proof (n_small _ _ _ I x Hx). lia.
    - cbn [length] in L. rewrite seq_length in L. lia. }
  set (idx := packet_index s). set (w := world s).
  assert (Hidx : idx = (b + Z.of_nat (length order)) mod max) by apply (n_index _ _ _ I).
  assert (Hnokey : ~ In idx (map fst (pending s))).
  { intros Hin. apply (n_keysE _ _ _ I) in Hin as (i & Li & F). rewrite Hidx in F. apply slots_apart in F; lia. }
  assert (Hnone : dict_get idx (pending s) = None) by (apply dict_get_notin; exact Hnokey).
  assert (Hroom : zlen (pending s) < max_queue_size s).
  { rewrite (n_max _ _ _ I). unfold zlen.
    assert (length (map fst (pending s)) <= length (map (fun i => ((b + Z.of_nat i) mod max)%Z) (seq 0 (length order))))%nat as L.
    { apply NoDup_incl_length; [apply (n_keys _ _ _ I)|]. intros k Hk. apply (n_keysE _ _ _ I) in Hk as (i & Li & ->).
      apply in_map_iff. exists i. split; [reflexivity|]. apply in_seq. lia. }
    rewrite !map_length, seq_length in L. lia. }
  destruct (spt_block (cmd h) (w_heap w) (Hfits h Hh)) as (h1 & q & bf & Hcr & _).
  destruct (spt_fresh _ _ _ _ _ Hcr) as [Hbf Hfr].
  destruct (spt_described _ _ _ _ _ Hcr (Hfits h Hh)) as (E1 & E2 & E3 & E4 & E5 & E6).
  set (r := Spt (length (w_objs w)) idx bf).
  destruct (tgt (fst (answers tgt cmd order t0)) (command_of (cmd h)) (data_out (cmd h))) as [t1 a] eqn:Ht.
  assert (Hoka : a_status a = 2 -> sense_of (pad 255 (a_sense a)) = Ok tt).
  { intros X. pose proof (Hok (fst (answers tgt cmd order t0)) (command_of (cmd h)) (data_out (cmd h))) as Y. rewrite Ht in Y. apply Y. exact X. }
  assert (Hans : answers tgt cmd (order ++ [h]) t0 = (t1, order_answers order ++ [(h, a)])) by (rewrite answers_snoc, Ht; reflexivity).
  set (w1 := WinWorld h1 (w_objs w ++ [q]) (w_dev w) (incoming_packets w)).
  assert (Hb : send_begin os (cmd h) (Some h) s = (with_world (at_send s r (Some h)) w1, Ok (idx, r))).
  { apply begin_ok; [exact Hroom|]. cbn [os_prepare_to_send win_os]. unfold win_prepare, at_prepare. cbn [world with_index].
    fold w idx. rewrite Hcr. reflexivity. }
  assert (Hrun : spt_run tgt q h1 (fst (w_dev w)) = (t1, a)).
  { unfold spt_run. rewrite E1, E2. unfold w. rewrite Hdev. cbn [fst]. exact Ht. }
  assert (Heap : forall p, (p < length (w_heap w))%nat -> (p < length h1)%nat /\ nth_error h1 p = nth_error (w_heap w) p).
  { intros p Lp. destruct Hfr as [[_ ->]|[y [_ ->]]]; [auto|]. rewrite app_length. split; [lia|apply nth_error_app1; lia]. }
  assert (Poked : forall p, (p < length (w_heap w))%nat -> nth_error (spt_mem q a h1) p = nth_error (w_heap w) p).
  { intros p Lp. unfold spt_mem. destruct (spt_reads q); [|apply Heap; exact Lp]. rewrite Hbf. rewrite <- (proj2 (Heap p Lp)).
    apply poke_neq. destruct Hfr as [[-> _]|[y [-> _]]]; [discriminate|]. intros F. inversion F. lia. }
  assert (Hsteps : forall s3 g, segment win_sleeps (Cor [win_send (friendly_win (honest_win tgt)) r; send_tail idx; call_loop os h] VNone
      (RGen (win_send (friendly_win (honest_win tgt)) r))) (with_world (at_send s r (Some h)) w1) s3 g ->
      segment win_sleeps (coroutine_init (call os h (cmd h))) s s3 g).
  { intros s3 g R. eapply on_step; [reflexivity|reflexivity|]. cbn [args cres].
    eapply on_step; [unfold next_step; cbn [stack args input_of send resume]; rewrite Hb; reflexivity|reflexivity|]. exact R. }
  assert (Hsend : resume (win_send (A := A) (friendly_win (honest_win tgt)) r) (Send VNone) (with_world (at_send s r (Some h)) w1) =
    if a_host a =? 0
    then (with_world (at_send s r (Some h)) (WinWorld (spt_mem q a h1) (w_objs w ++ [spt_done q a]) (t1, Datatypes.S kd) (incoming_packets w)),
          Yield (YVal (VData (DInt (zlen (a_data a))))) (win_send_append r))
    else (with_world (at_send s r (Some h)) (WinWorld h1 (w_objs w ++ [q]) (t1, kd) (incoming_packets w)), Raise EAsiOS)).
  { unfold win_send. cbn [resume]. cbn [world with_world w1 w_objs spt_obj r w_heap w_dev incoming_packets].
    rewrite nth_new. cbn [dev_control friendly_win honest_win]. unfold honest_control. rewrite Hrun.
    assert (Hkd : snd (w_dev w) = kd) by (unfold w; rewrite Hdev; reflexivity).
    destruct (a_host a =? 0); cbn [fst snd]; rewrite put_obj_new, Hkd; reflexivity. }
  assert (Keep : forall (s2 : ex) x w', w_objs (world s2) = w_objs w ++ [spt_done q a] \/ w_objs (world s2) = w_objs w ++ [q] ->
     (forall p, (p < length (w_heap w))%nat -> (p < length (w_heap (world s2)))%nat /\ nth_error (w_heap (world s2)) p = nth_error (w_heap w) p) ->
     cb_log s2 = cb_log s -> (forall k, k <> idx -> dict_get k (pending s2) = dict_get k (pending s)) ->
     held s order x w' -> held s2 (order ++ [h]) x w').
  { intros s2 x w' Ho Hp Hl Hg [P1 P2 P3 P4 P5 P6 P7 P8 P9]. constructor; auto.
    - destruct P1 as (i & Ni & Ei). exists i. split; [|exact Ei]. rewrite nth_error_app1; [exact Ni|]. apply nth_error_Some. congruence.
    - rewrite Hg; [exact P2|]. intros F. apply Hnokey. rewrite <- F. apply dict_get_in in P2. apply in_map_iff. eexists. split; [|exact P2]. reflexivity.
    - unfold results_of. rewrite Hl. exact P3.
    - rewrite Hans. cbn [snd]. apply in_or_app. left. exact P4.
    - fold w in P8. assert (spt_obj (v_req w') < length (w_objs w))%nat by (apply nth_error_Some; congruence).
      destruct Ho as [-> | ->]; rewrite nth_error_app1 by lia; exact P8.
    - intros p Ep. destruct (P9 p Ep) as [L1 L2]. fold w in L1, L2. destruct (Hp p L1) as [L3 L4]. split; [exact L3|]. rewrite L4. exact L2. }
  assert (Hnd : NoDup (order ++ [h])).
  { eapply Permutation_NoDup; [apply Permutation_cons_append|]. constructor; [exact Hnew|apply (n_nodup _ _ _ I)]. }
  assert (Hsm : forall x, In x (order ++ [h]) -> (x < count)%nat).
  { intros x Hx. apply in_app_iff in Hx as [Hx|[<-|[]]]; [apply (n_small _ _ _ I); exact Hx|exact Hh]. }
  assert (Hix : ((b + Z.of_nat (length order)) mod max + 1) mod max = (b + Z.of_nat (length (order ++ [h]))) mod max).
  { rewrite app_length. cbn [length]. rewrite Zplus_mod_idemp_l. f_equal. lia. }
  assert (Hfresh : forall s2 : ex, cb_log s2 = cb_log s -> forall p x, rank p = 1%nat -> wupd ph h p x = WFresh -> (x < count)%nat /\ ~ In x (order ++ [h]) /\ results_of x s2 = []).
  { intros s2 Hl p x Np Hx. destruct (Nat.eq_dec x h) as [->|Ne]; [rewrite wupd_same in Hx; subst p; discriminate|]. rewrite wupd_other in Hx by exact Ne.
    destruct (n_fresh _ _ _ I x Hx) as (F1 & F2 & F3). split; [exact F1|]. split; [|unfold results_of; rewrite Hl; exact F3].
    rewrite in_app_iff. intros [F|[F|[]]]; auto. }
  assert (Hdone : forall p, (forall o k, p = WDone o k -> o = win_verdict (cmd h) a /\ k = win_turns a) -> forall x o k, wupd ph h p x = WDone o k -> (x < count)%nat ->
     exists a, In (x, a) (order_answers (order ++ [h])) /\ o = win_verdict (cmd x) a /\ k = win_turns a).
  { intros p Hp x o k Hx Lx. rewrite Hans. cbn [snd]. destruct (Nat.eq_dec x h) as [->|Ne].
    - rewrite wupd_same in Hx. exists a. split; [apply in_or_app; right; left; reflexivity|]. apply Hp. exact Hx.
    - rewrite wupd_other in Hx by exact Ne. destruct (n_done _ _ _ I x o k Hx Lx) as (a' & F1 & F2). exists a'. split; [apply in_or_app; auto|exact F2]. }
  destruct (a_host a =? 0) eqn:Hhost.
  - apply Z.eqb_eq in Hhost. set (s2 := with_world (at_send s r (Some h)) _) in Hsend at 2.
    set (v := Wreq r q (w_heap w) h1 a). exists s2, (WHeld v). split; [|split; [|reflexivity]].
    + apply Hsteps. cbn [wgreen v v_req v_ans]. eapply switch_step.
      * unfold next_step. cbn [stack args input_of]. rewrite Hsend. reflexivity.
      * unfold win_sleeps. cbn. fold w. unfold w. rewrite Hdev. cbn. lia.
    + assert (Hg : forall k, k <> idx -> dict_get k (pending s2) = dict_get k (pending s)).
      { intros k Nk. change (pending s2) with (dict_set idx (r, Some h) (pending s)). apply dict_get_set_neq. exact Nk. }
      constructor; auto.
      * apply (n_max _ _ _ I).
      * cbn. rewrite (n_max _ _ _ I). unfold idx in Hidx. rewrite Hidx. exact Hix.
      * exact (n_incoming _ _ _ I).
      * exists (Datatypes.S kd). rewrite Hans. reflexivity.
      * change (pending s2) with (dict_set idx (r, Some h) (pending s)). apply dict_set_keys. apply (n_keys _ _ _ I).
      * intros k Hk. change (pending s2) with (dict_set idx (r, Some h) (pending s)) in Hk. rewrite dict_get_none_set in Hk by exact Hnone.
        rewrite map_app, in_app_iff in Hk. rewrite app_length. cbn [length]. destruct Hk as [Hk|[<-|[]]].
        -- apply (n_keysE _ _ _ I) in Hk as (i & Li & ->). exists i. split; [lia|reflexivity].
        -- exists (length order). split; [lia|exact Hidx].
      * intros x Hx. eapply Hfresh; [reflexivity| |exact Hx]. reflexivity.
      * intros x w' Hx. destruct (Nat.eq_dec x h) as [->|Ne].
        -- rewrite wupd_same in Hx. inversion Hx; subst w'. constructor; auto.
           ++ exists (length order). split; [apply nth_new|exact Hidx].
           ++ change (pending s2) with (dict_set idx (r, Some h) (pending s)). apply dict_get_set_eq.
           ++ rewrite Hans. cbn [snd]. apply in_or_app. right. left. reflexivity.
           ++ exact (nth_new _ _ _).
           ++ intros p Ep. split; [exact (E4 a p Ep)|reflexivity].
        -- rewrite wupd_other in Hx by exact Ne. apply (Keep s2 x w'); auto.
           ++ intros p Lp. change (w_heap (world s2)) with (spt_mem q a h1). rewrite spt_mem_length. split; [apply Heap; exact Lp|apply Poked; exact Lp].
           ++ apply (n_held _ _ _ I x w' Hx).
      * intros x o k. apply Hdone. intros o' k' F. discriminate.
  - set (s2 := with_world (at_send s r (Some h)) _) in Hsend at 2. set (s3 := with_pending s2 (dict_del idx (pending s2))).
    assert (Hdel : dict_del idx (pending s2) = pending s) by (apply dict_del_set; exact Hnone).
    exists s3, (WDone (Threw EAsiOS) 1). split; [|split; [|reflexivity]].
    + apply Hsteps. assert (Sl : win_sleeps s2 = win_sleeps (with_world (at_send s r (Some h)) w1)).
      { unfold win_sleeps. cbn. unfold w. rewrite Hdev. reflexivity. }
      eapply on_step; [unfold next_step; cbn [stack args input_of]; rewrite Hsend; reflexivity|exact Sl|].
      eapply (on_step _ _ _ s3); [|reflexivity|].
      * unfold next_step. cbn [stack args input_of]. unfold send_tail. cbn [resume]. unfold send_abort.
        change (pending s2) with (dict_set idx (r, Some h) (pending s)) at 1. rewrite dict_get_set_eq. reflexivity.
      * apply raise_step. unfold next_step. cbn [stack args input_of]. rewrite wcall_throw. reflexivity.
    + assert (Hg : forall k, dict_get k (pending s3) = dict_get k (pending s)) by (intros k; unfold s3; cbn [pending with_pending]; rewrite Hdel; reflexivity).
      assert (Hpend : pending s3 = pending s) by exact Hdel.
      constructor; auto.
      * apply (n_max _ _ _ I).
      * cbn. rewrite (n_max _ _ _ I). unfold idx in Hidx. rewrite Hidx. exact Hix.
      * exact (n_incoming _ _ _ I).
      * exists kd. rewrite Hans. reflexivity.
      * rewrite Hpend. apply (n_keys _ _ _ I).
      * intros k Hk. rewrite Hpend in Hk. apply (n_keysE _ _ _ I) in Hk as (i & Li & ->). exists i. rewrite app_length. split; [lia|reflexivity].
      * intros x Hx. eapply Hfresh; [reflexivity| |exact Hx]. reflexivity.
      * intros x w' Hx. destruct (Nat.eq_dec x h) as [->|Ne]; [rewrite wupd_same in Hx; discriminate|].
        rewrite wupd_other in Hx by exact Ne. apply (Keep s3 x w'); auto.
        -- apply (n_held _ _ _ I x w' Hx).
      * intros x o k. apply Hdone. intros o' k' F. inversion F. unfold win_verdict, win_turns. rewrite Hhost. split; reflexivity.
Qed.

Lemma finish_win : forall s order ph h w, winv s order ph -> ph h = WHeld w ->
  exists s1 o, match wgreen h (WHeld w) with Ready c => segment win_sleeps c s s1 (Over o) | Over _ => False end /\
    winv s1 order (wupd ph h (WDone o 2)).
Proof.
  intros s order ph h w I Hph. destruct (n_held _ _ _ I h w Hph) as [P1 P2 P3 P4 P5 P6 P7 P8 P9].
  destruct P1 as (ih & Nih & Eih). assert (Hin : In h order) by (eapply nth_error_In; exact Nih).
  pose proof (n_small _ _ _ I h Hin) as Hh. pose proof (Hfits h Hh) as Hf.
  destruct (spt_described _ _ _ _ _ P7 Hf) as (E1 & E2 & E3 & E4 & E5 & E6).
  set (a := v_ans w) in *. set (r := v_req w) in *. set (W := world s).
  assert (HW : win_handle sense_of r W = Ok (win_expected (cmd h) a, packet_id r)).
  { rewrite (win_handle_spec sense_of W r (spt_done (v_hdr w) a)).
    - rewrite E3. cbn [ScsiStatus DataIn spt_done]. unfold win_expected. rewrite <- (E6 a). cbn [DataTransferLength spt_done].
      destruct (spt_data r) as [p|] eqn:Ep; [|reflexivity]. unfold W. rewrite (proj2 (P9 p eq_refl)). reflexivity.
    - split; [exact P8|]. split; [intros p Ep; apply P9; exact Ep|]. cbn [DataIn spt_done]. exact E5.
    - cbn [ScsiStatus spt_done]. rewrite E3. exact P5. }
  set (sA := with_world s (WinWorld (w_heap W) (w_objs W) (w_dev W) [r])).
  set (rp := win_expected (cmd h) a) in *.
  set (sF := with_log (with_pending s (dict_del (packet_id r) (pending s))) (cb_log s ++ [(h, rp)])).
  assert (Hs : with_world s (WinWorld (w_heap W) (w_objs W) (w_dev W) []) = s).
  { unfold W. rewrite <- (n_incoming _ _ _ I). destruct s as [sp si sm sl [x1 x2 x3 x4]]. reflexivity. }
  assert (Hrec : resume (win_receive (A := A) (D := T * nat) sense_of) (Send VNone) sA = (s, Yield (YVal (VData (DPair rp (packet_id r)))) gen_end)).
  { unfold win_receive. cbn [resume]. cbn [world with_world incoming_packets sA]. change [r] with ([] ++ [r] : list spt). rewrite pop_app.
    cbn [w_heap w_objs w_dev].
    assert (HW' : win_handle sense_of r (WinWorld (w_heap W) (w_objs W) (w_dev W) []) = Ok (rp, packet_id r)) by (rewrite <- HW; reflexivity).
    rewrite HW'. unfold sA. unfold with_world at 1. cbn [pending packet_index max_queue_size cb_log].
    change (Executer _ _ _ _ _) with (with_world s (WinWorld (w_heap W) (w_objs W) (w_dev W) [])). rewrite Hs. reflexivity. }
  assert (Hne : is_queue_empty sA = false).
  { unfold is_queue_empty, zlen. change (pending sA) with (pending s). destruct (pending s); [discriminate|]. cbn [length]. apply Z.eqb_neq. lia. }
  assert (Hres : results_of h sF = [rp]).
  { rewrite (results_logged _ _ h s sF h rp) by reflexivity. rewrite P3, Nat.eqb_refl. reflexivity. }
  assert (Hcomp : complete rp (packet_id r) s = (sF, Ok tt)) by (unfold complete; rewrite P2; reflexivity).
  assert (Hq : results_of h sA = []) by exact P3.
  exists sF, (user_sees rp). split.
  - cbn [wgreen]. fold r a.
    assert (Happ : resume (win_send_append (A := A) (D := T * nat) r) (input_of (VData (DInt (zlen (a_data a))))) s = (sA, Stop)).
    { unfold win_send_append, input_of, resume. cbv zeta. fold W. unfold W at 4. rewrite (n_incoming _ _ _ I). reflexivity. }
    eapply on_step; [unfold next_step; cbn [stack args]; rewrite Happ; reflexivity|reflexivity|]. cbn [args cres].
    eapply on_step; [reflexivity|reflexivity|]. cbn [args cres].
    eapply on_step; [unfold next_step; cbn [stack args input_of]; rewrite wcall_resume, Hq; reflexivity|reflexivity|].
    eapply on_step; [unfold next_step, process_pending_response; cbn [stack args input_of resume]; rewrite Hne; reflexivity|reflexivity|].
    eapply on_step; [unfold next_step; cbn [stack args input_of os_receive win_os]; rewrite Hrec; reflexivity|reflexivity|].
    eapply on_step; [reflexivity|reflexivity|]. cbn [args cres].
    eapply on_step; [unfold next_step, process_received; cbn [stack args input_of resume]; rewrite Hcomp; reflexivity|reflexivity|].
    eapply on_step; [reflexivity|reflexivity|]. cbn [args cres].
    clearbody rp. destruct rp as [d|e0].
    + eapply on_step; [unfold next_step; cbn [stack args input_of]; rewrite wcall_resume, Hres; reflexivity|reflexivity|].
      eapply on_step; [unfold next_step; cbn [stack args]; destruct d; reflexivity|reflexivity|]. cbn [args cres].
      replace (Over (user_sees (RespData d))) with (Over (S := ex) (D := dval (wire unit A)) (Returned (RVal (val_of_data d)))) by (destruct d; reflexivity).
      apply (sg_done win_sleeps (Cor [] (val_of_data d) (RVal (val_of_data d)))). reflexivity.
    + apply raise_step. unfold next_step. cbn [stack args input_of]. rewrite wcall_resume, Hres. reflexivity.
  - assert (I' := I). destruct I'. constructor; auto.
    + change (pending sF) with (dict_del (packet_id r) (pending s)). apply dict_del_keys. exact n_keys0.
    + intros k Hk. apply n_keysE0. change (pending sF) with (dict_del (packet_id r) (pending s)) in Hk.
      clear - Hk. induction (pending s) as [|[j x] l IH]; [exact Hk|]. cbn in *. destruct (j =? packet_id r); cbn in *; tauto.
    + intros x Hx. destruct (Nat.eq_dec x h) as [->|Ne]; [rewrite wupd_same in Hx; discriminate|]. rewrite wupd_other in Hx by exact Ne.
      destruct (n_fresh0 x Hx) as (F1 & F2 & F3). split; [exact F1|]. split; [exact F2|].
      rewrite (results_logged _ _ x s sF h rp) by reflexivity. rewrite F3. destruct (Nat.eqb_spec h x); [congruence|reflexivity].
    + intros x w' Hx. destruct (Nat.eq_dec x h) as [->|Ne]; [rewrite wupd_same in Hx; discriminate|]. rewrite wupd_other in Hx by exact Ne.
      destruct (n_held0 x w' Hx) as [R1 R2 R3 R4 R5 R6 R7 R8 R9]. constructor; auto.
      * change (pending sF) with (dict_del (packet_id r) (pending s)). rewrite dict_get_del_neq; [exact R2|].
        destruct R1 as (ix & Nix & Eix). rewrite Eix, Eih. pose proof (order_few _ _ _ I) as Of. intros F. apply slots_apart in F.
        -- subst ix. congruence.
        -- assert (ix < length order)%nat by (apply nth_error_Some; congruence). lia.
        -- assert (ih < length order)%nat by (apply nth_error_Some; congruence). lia.
      * rewrite (results_logged _ _ x s sF h rp) by reflexivity. rewrite R3. destruct (Nat.eqb_spec h x); [congruence|reflexivity].
    + intros x o k Hx Lx. destruct (Nat.eq_dec x h) as [->|Ne].
      * rewrite wupd_same in Hx. inversion Hx; subst o k. exists a. split; [exact P4|]. unfold win_verdict, win_turns. rewrite P6. split; reflexivity.
      * rewrite wupd_other in Hx by exact Ne. eauto.
Qed.

Lemma turn_win : forall s order ph h c, winv s order ph -> wgreen h (ph h) = Ready c ->
  exists s1 p, segment win_sleeps c s s1 (wgreen h p) /\ rank p = Datatypes.S (rank (ph h)) /\
    winv s1 (if existsb (Nat.eqb h) order then order else order ++ [h]) (wupd ph h p).
Proof.
  intros s order ph h c I Hg. destruct (ph h) as [|w|o k] eqn:Ph; cbn in Hg; [| |discriminate].
  - inversion Hg; subst c. destruct (start_win s order ph h I Ph) as (s1 & p & Sg & I1 & Np). exists s1, p. split; [exact Sg|]. split.
    + exact Np.
    + destruct (existsb (Nat.eqb h) order) eqn:Ex; [|exact I1]. exfalso. apply existsb_exists in Ex as (x & Hx & Ex). apply Nat.eqb_eq in Ex. subst x.
      apply (proj1 (proj2 (n_fresh _ _ _ I h Ph))). exact Hx.
  - destruct (finish_win s order ph h w I Ph) as (s1 & o & Sg & I1). cbn [wgreen] in Sg. rewrite Hg in Sg || (inversion Hg; subst c).
    exists s1, (WDone o 2). split; [exact Sg|]. split; [reflexivity|]. destruct (existsb (Nat.eqb h) order) eqn:Ex; [exact I1|]. exfalso.
    destruct (hd_place _ _ _ _ (n_held _ _ _ I h w Ph)) as (i & Ni & _). apply nth_error_In in Ni.
    assert (existsb (Nat.eqb h) order = true) by (apply existsb_exists; exists h; split; [exact Ni|apply Nat.eqb_refl]). congruence.
Qed.

Lemma run_win : forall s gs schedule s' gs', greenlets win_sleeps s gs schedule s' gs' ->
  forall order ph, winv s order ph -> (forall h, gs h = wgreen h (ph h)) ->
  exists ph', winv s' (order ++ first_turns order schedule) ph' /\ (forall h, gs' h = wgreen h (ph' h)) /\
    (forall h, rank (ph h) + count_occ Nat.eq_dec schedule h = rank (ph' h))%nat.
Proof.
  induction 1 as [s gs|s gs h c s1 g1 schedule s' gs' Hg Sg _ IH]; intros order ph I Hgs.
  - exists ph. cbn. rewrite app_nil_r. split; [exact I|]. split; [exact Hgs|]. intros h. lia.
  - rewrite Hgs in Hg. destruct (turn_win _ _ _ h c I Hg) as (s1' & p & Sg' & Rk & I1).
    destruct (segment_det _ _ _ _ _ Sg _ _ Sg') as [-> ->]. clear Sg'.
    destruct (IH _ _ I1) as (ph' & I' & Hgs' & R').
    + intros x. unfold wupd. destruct (Nat.eqb_spec x h) as [->|]; [reflexivity|apply Hgs].
    + exists ph'. split; [|split; [exact Hgs'|]].
      * cbn [first_turns]. destruct (existsb (Nat.eqb h) order); [exact I'|]. rewrite <- app_assoc in I'. cbn [app] in I'.
        rewrite (first_turns_same schedule (h :: order) (order ++ [h])); [exact I'|]. intros x. rewrite in_app_iff. cbn [In]. intuition auto.
      * intros x. specialize (R' x). cbn [count_occ]. unfold wupd in R'. destruct (Nat.eq_dec h x) as [->|Ne].
        -- rewrite Nat.eqb_refl in R'. lia.
        -- destruct (Nat.eqb_spec x h); [congruence|]. exact R'.
Qed.
End Windows.

Section WinTheorem.
Context {T A : Type} (sense_of : bytes -> result unit) (tgt : target T) (count : nat) (cmd : nat -> scsi_command).
Notation ex := (executer spt (win_world (T * nat))).
Notation os := (win_os (A := A) sense_of (friendly_win (honest_win tgt))).
Lemma win_any_schedule : forall (s : ex) t schedule s' gs',
  win_intelligible sense_of tgt -> (forall h, (h < count)%nat -> win_fits (cmd h)) -> win_unused count t s -> Z.of_nat count <= max_queue_size s ->
  greenlets win_sleeps s (spawned count (fun h => call os h (cmd h))) schedule s' gs' ->
  fst (w_dev (world s')) = fst (answers tgt cmd (first_turns [] schedule) t) /\
  forall h, (h < count)%nat ->
    match gs' h with
    | Over o => exists a, In (h, a) (snd (answers tgt cmd (first_turns [] schedule) t)) /\ o = win_verdict (cmd h) a /\ count_occ Nat.eq_dec schedule h = win_turns a
    | Ready c => (count_occ Nat.eq_dec schedule h <= 1)%nat /\ exists s2 g, segment win_sleeps c s' s2 g
    end.
Proof.
  intros s t schedule s' gs' Hi Hf (Hp & Hidx & Hinc & Hd & Hlog) Hc R.
  assert (Hmax : 1 <= max_queue_size s) by lia.
  set (ph0 := fun h => if Nat.ltb h count then WFresh (T := T) (A := A) else WDone (Returned (RVal VNone)) 0).
  assert (I0 : winv (A := A) sense_of tgt (max_queue_size s) (packet_index s) count cmd t s [] ph0).
  { constructor; auto.
    - cbn [length]. rewrite Z.add_0_r. symmetry. apply Z.mod_small. exact Hidx.
    - exists (snd (w_dev (world s))). cbn [answers fst]. rewrite <- Hd. destruct (w_dev (world s)); reflexivity.
    - constructor.
    - intros h [].
    - rewrite Hp. constructor.
    - rewrite Hp. intros k [].
    - intros h Hh. unfold ph0 in Hh. destruct (Nat.ltb_spec h count) as [L|L]; [|discriminate]. split; [exact L|]. split; [intros []|].
      apply quiet_log. apply Hlog. exact L.
    - intros h w Hh. unfold ph0 in Hh. destruct (Nat.ltb h count); discriminate.
    - intros h o k Hh L. unfold ph0 in Hh. apply Nat.ltb_lt in L. rewrite L in Hh. discriminate. }
  destruct (run_win sense_of tgt (max_queue_size s) (packet_index s) count cmd t Hmax Hc Hf Hi _ _ _ _ _ R _ _ I0) as (ph & I & G & Rk).
  { intros h. unfold spawned, ph0. destruct (Nat.ltb h count); reflexivity. }
  cbn [app] in I. split.
  - destruct (n_dev _ _ _ _ _ _ _ _ _ _ I) as [k ->]. reflexivity.
  - intros h Hh. rewrite G. specialize (Rk h). unfold ph0 in Rk at 1. apply Nat.ltb_lt in Hh as Hb. rewrite Hb in Rk. cbn [rank] in Rk. rewrite Nat.add_0_l in Rk.
    destruct (wgreen sense_of tgt cmd h (ph h)) as [c|o] eqn:Eg.
    + split; [destruct (ph h); cbn in Rk, Eg; try discriminate; lia|].
      destruct (turn_win sense_of tgt (max_queue_size s) (packet_index s) count cmd t Hmax Hc Hf Hi _ _ _ h c I Eg) as (s2 & p & Sg & _). eauto.
    + destruct (ph h) as [| |o' k] eqn:Ph; cbn in Eg; try discriminate. inversion Eg; subst o'.
      destruct (n_done _ _ _ _ _ _ _ _ _ _ I h o k Ph Hh) as (a & F1 & F2 & F3). exists a. split; [exact F1|]. split; [exact F2|]. cbn [rank] in Rk. lia.
Qed.

Lemma answers_from : forall order t h a, In (h, a) (snd (answers tgt cmd order t)) -> exists t1 cdb data, a = snd (tgt t1 cdb data).
Proof.
  induction order as [|x order IH]; intros t h a H; [destruct H|]. cbn [answers] in H.
  destruct (tgt t (command_of (cmd x)) (data_out (cmd x))) as [t1 a1] eqn:E. destruct (answers tgt cmd order t1) as [t2 l] eqn:E2. cbn [snd] in H.
  destruct H as [H|H].
  - inversion H; subst. eexists _, _, _. rewrite E. reflexivity.
  - apply (IH t1 h). rewrite E2. exact H.
Qed.
Lemma win_runs : forall (s : ex) t schedule,
  win_intelligible sense_of tgt -> (forall h, (h < count)%nat -> win_fits (cmd h)) -> win_unused count t s -> Z.of_nat count <= max_queue_size s ->
  (forall t1 cdb data, a_host (snd (tgt t1 cdb data)) = 0) ->
  (forall h, In h schedule -> (h < count)%nat /\ (count_occ Nat.eq_dec schedule h <= 2)%nat) ->
  exists s' gs', greenlets win_sleeps s (spawned count (fun h => call os h (cmd h))) schedule s' gs'.
Proof.
  intros s t schedule Hi Hf U Hc Hh. induction schedule as [|h schedule IH] using rev_ind; intros H; [eexists _, _; constructor|].
  destruct IH as (s1 & gs1 & R).
  { intros x Hx. destruct (H x) as [L C]; [apply in_or_app; auto|]. rewrite count_occ_app in C. split; [exact L|lia]. }
  destruct (H h) as [L C]; [apply in_or_app; right; left; reflexivity|]. rewrite count_occ_app in C. cbn [count_occ] in C.
  destruct (Nat.eq_dec h h) as [_|]; [|congruence].
  destruct (win_any_schedule s t schedule s1 gs1 Hi Hf U Hc R) as [_ E]. specialize (E h L). destruct (gs1 h) as [c|o] eqn:G.
  - destruct E as (_ & s2 & g & Sg). eexists _, _. eapply greenlets_snoc; [exact R|exact G|exact Sg].
  - destruct E as (a & Ha & _ & E). apply answers_from in Ha as (t1 & cdb & data & ->). unfold win_turns in E. rewrite Hh in E. cbn in E. lia.
Qed.
End WinTheorem.
