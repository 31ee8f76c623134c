(** Greenlets that share a LinuxIoctlCommandExecuter. *)
From Coq Require Import ZArith List Bool Lia Permutation PeanoNat.
From Verif Require Import Base BaseFacts Gen SpecGen GenFacts Executer SpecCall ExecFacts ExecGenFacts ExecStepFacts
  OsCommon OsLinux OsSolaris OsAix OsWin32 SpecSg SpecDrivers SpecSession OsFacts LinuxFacts SolarisFacts AixFacts WinFacts SpecConc ConcFacts
  SessionFacts SpecQueue QueueFacts Greenlet SpecGreen GreenFacts GreenWinFacts.
Import ListNotations.
Open Scope Z_scope.

Section Ioctl.
Context {T A : Type} (sense_of : bytes -> result unit) (tgt : target T) (timeout max b : Z) (count : nat) (cmd : nat -> scsi_command) (t0 : T).
Notation ex := (executer sgio (linux_world (sg_state T * nat))).
Notation os := (linux_ioctl_os (A := A) sense_of (friendly_sg (honest tgt)) timeout).
Notation out := (outcome ex (dval (wire (option sg_hdr) A))).
Context (Hmax : 1 <= max <= 2 ^ 31) (Hcount : Z.of_nat count <= max) (Hfits : forall h, (h < count)%nat -> fits (cmd h)).

Inductive iphase : Type := IFresh | IHeld | IDone (o : out) (turns : nat).
Definition slot_of (i : nat) : Z := (b + Z.of_nat i) mod max.
Definition igreen (order : list nat) (h : nat) (p : iphase) (g : green (S := ex) (D := dval (wire (option sg_hdr) A))) : Prop :=
  match p with
  | IFresh => g = Ready (coroutine_init (call os h (cmd h)))
  | IHeld => exists i, nth_error order i = Some h /\
      g = Ready (Cor [gen_end; send_tail (slot_of i); call_loop os h] (VData (DInt 88)) (RVal (VData (DInt 88))))
  | IDone o _ => g = Over o
  end.
Definition iupd (ph : nat -> iphase) (h : nat) (p : iphase) : nat -> iphase := fun x => if Nat.eqb x h then p else ph x.
Lemma iupd_same : forall ph h p, iupd ph h p h = p.
Proof. intros. unfold iupd. rewrite Nat.eqb_refl. reflexivity. Qed.
Lemma iupd_other : forall ph h p x, x <> h -> iupd ph h p x = ph x.
Proof. intros. unfold iupd. apply Nat.eqb_neq in H. rewrite H. reflexivity. Qed.

Notation order_answers order := (snd (answers tgt cmd order t0)).
Definition own (h : nat) (a : answer) : resp := RespData (data_wanted (cmd h) (a_data a)).

Record there (s : ex) (order : list nat) (x : nat) : Prop := There {
  th_req : exists i r h0 h1 a, nth_error order i = Some x /\ dict_get (slot_of i) (pending s) = Some (r, Some x) /\
    sgio_create (slot_of i) (cmd x) timeout h0 = (h1, r) /\ l_buffer (world s) = Some (hdr r) /\
    In (x, a) (order_answers order) /\ l_heap (world s) = completed_mem (hdr r) a h1
}.
Record iinv (s : ex) (order got : list nat) (latest : option nat) (ph : nat -> iphase) : Prop := Iinv {
  i_max : max_queue_size s = max;
  i_index : packet_index s = slot_of (length order);
  i_dev : exists q k, l_dev (world s) = ((fst (answers tgt cmd order t0), q), k);
  i_nodup : NoDup order;
  i_small : forall h, In h order -> (h < count)%nat;
  i_keys : NoDup (map fst (pending s));
  i_keysE : forall k, In k (map fst (pending s)) -> exists i, (i < length order)%nat /\ k = slot_of i;
  i_fresh : forall h, ph h = IFresh -> (h < count)%nat /\ ~ In h order /\ ~ In h got /\ results_of h s = [];
  i_held : forall h, ph h = IHeld -> exists i, nth_error order i = Some h /\
    (In h got -> exists a, In (h, a) (order_answers order) /\ results_of h s = [own h a]) /\
    (~ In h got -> results_of h s = [] /\ exists r, dict_get (slot_of i) (pending s) = Some (r, Some h));
  i_done : forall h o k, ph h = IDone o k -> (h < count)%nat -> In h order /\ k = 2%nat /\
    if existsb (Nat.eqb h) got then exists a, In (h, a) (order_answers order) /\ o = user_sees (own h a) else o = Threw EAttribute;
  i_latest : match latest with
    | Some x => ph x = IHeld /\ ~ In x got /\ there s order x
    | None => order = [] \/ exists q, l_buffer (world s) = Some q /\ status q = 0 /\ host_status q = 0 /\ driver_status q = 0 /\
        dict_get (pack_id q) (pending s) = None
    end
}.

Lemma icall_resume : forall h v (s : ex), resume (call_loop os h) (Send v) s =
  match results_of h s with
  | [] => (s, Yield (YGen (process_pending_response os)) (call_loop os h))
  | RespExn e :: _ => (s, Raise e)
  | RespData d :: _ => (s, Yield (YVal (val_of_data d)) process_end)
  end.
Proof. intros. rewrite call_loop_unfold at 1. reflexivity. Qed.
Lemma icall_throw : forall h e (s : ex), resume (call_loop os h) (Throw e) s = (s, Raise e).
Proof. intros. rewrite call_loop_unfold at 1. reflexivity. Qed.

Lemma islots_apart : forall i j, (i < count)%nat -> (j < count)%nat -> slot_of i = slot_of j -> i = j.
Proof.
  unfold slot_of. intros i j Li Lj F. assert (b + Z.of_nat i = b + Z.of_nat j); [|lia]. apply (residues_distinct max _ _ (b + max)); first [exact F|lia].
Qed.
Lemma iorder_few : forall s order got latest ph, iinv s order got latest ph -> (length order <= count)%nat.
Proof.
  intros s order got latest ph I. rewrite <- (seq_length count 0). apply NoDup_incl_length; [apply (i_nodup _ _ _ _ _ I)|].
  intros x Hx. apply in_seq. pose proof (i_small _ _ _ _ _ I x Hx). lia.
Qed.

Lemma start_ioctl : forall s order got latest ph h, iinv s order got latest ph -> ph h = IFresh ->
  exists s1 g, segment linux_sleeps (coroutine_init (call os h (cmd h))) s s1 g /\ igreen (order ++ [h]) h IHeld g /\
    iinv s1 (order ++ [h]) got (Some h) (iupd ph h IHeld).
Proof.
  intros s order got latest ph h I Hph. destruct (i_fresh _ _ _ _ _ I h Hph) as (Hh & Hnew & Hng & Hres).
  destruct (i_dev _ _ _ _ _ I) as (q & kd & Hdev).
  assert (Hlt : (length order < count)%nat).
  { assert (length (h :: order) <= length (seq 0 count))%nat as L.
    - apply NoDup_incl_length; [constructor; [exact Hnew|apply (i_nodup _ _ _ _ _ I)]|].
      intros x [<-|Hx]; apply in_seq; [lia|]. pose proof (i_small _ _ _ _ _ I x Hx). lia.
    - cbn [length] in L. rewrite seq_length in L. lia. }
  set (idx := packet_index s). set (w := world s).
  assert (Hidx : idx = slot_of (length order)) by apply (i_index _ _ _ _ _ I).
  assert (Hnokey : ~ In idx (map fst (pending s))).
  { intros Hin. apply (i_keysE _ _ _ _ _ I) in Hin as (i & Li & F). rewrite Hidx in F. apply islots_apart in F; lia. }
  assert (Hnone : dict_get idx (pending s) = None) by (apply dict_get_notin; exact Hnokey).
  assert (Hroom : zlen (pending s) < max_queue_size s).
  { rewrite (i_max _ _ _ _ _ I). unfold zlen.
    assert (length (map fst (pending s)) <= length (map slot_of (seq 0 (length order))))%nat as L.
    { apply NoDup_incl_length; [apply (i_keys _ _ _ _ _ I)|]. intros k Hk. apply (i_keysE _ _ _ _ _ I) in Hk as (i & Li & ->).
      apply in_map_iff. exists i. split; [reflexivity|]. apply in_seq. lia. }
    rewrite !map_length, seq_length in L. lia. }
  destruct (sgio_create idx (cmd h) timeout (l_heap w)) as [h1 r] eqn:Hcr.
  destruct (tgt (fst (answers tgt cmd order t0)) (command_of (cmd h)) (data_out (cmd h))) as [t1 a] eqn:Ht.
  assert (Hans : answers tgt cmd (order ++ [h]) t0 = (t1, order_answers order ++ [(h, a)])) by (rewrite answers_snoc, Ht; reflexivity).
  set (w1 := LinuxWorld h1 (l_dev w) (l_buffer w)).
  assert (Hb : send_begin os (cmd h) (Some h) s = (with_world (at_send s r (Some h)) w1, Ok (idx, r))).
  { apply begin_ok; [exact Hroom|]. cbn [os_prepare_to_send linux_ioctl_os]. unfold linux_prepare, at_prepare. cbn [world with_index].
    fold w idx. rewrite Hcr. reflexivity. }
  set (s2 := with_world (at_send s r (Some h)) (LinuxWorld (completed_mem (hdr r) a h1) ((t1, q), Datatypes.S kd) (Some (hdr r)))).
  assert (Hsend : resume (linux_ioctl_send (A := A) (friendly_sg (honest tgt)) r) (Send VNone) (with_world (at_send s r (Some h)) w1) =
    (s2, Yield (YVal (VData (DInt 88))) gen_end)).
  { unfold linux_ioctl_send. cbn [resume]. cbn [world with_world w1 l_heap l_dev l_buffer sg_ioctl friendly_sg honest].
    unfold honest_ioctl, w. rewrite Hdev. cbn [fst snd].
    rewrite (created_cdb timeout _ _ _ _ _ Hcr), (created_data timeout _ _ _ _ _ Hcr) by apply (Hfits h Hh) || auto.
    rewrite Ht. reflexivity. }
  exists s2. eexists. split; [|split].
  - eapply on_step; [reflexivity|reflexivity|]. cbn [args cres].
    eapply on_step; [unfold next_step; cbn [stack args input_of send resume]; rewrite Hb; reflexivity|reflexivity|]. cbn [args cres].
    eapply switch_step.
    + unfold next_step. cbn [stack args input_of os_send linux_ioctl_os]. rewrite Hsend. reflexivity.
    + unfold linux_sleeps. cbn. fold w. unfold w. rewrite Hdev. cbn. lia.
  - exists (length order). split; [apply nth_new|]. cbn [args cres]. rewrite Hidx. reflexivity.
  - assert (Hg : forall k, k <> idx -> dict_get k (pending s2) = dict_get k (pending s)).
    { intros k Nk. change (pending s2) with (dict_set idx (r, Some h) (pending s)). apply dict_get_set_neq. exact Nk. }
    assert (Hgi : dict_get idx (pending s2) = Some (r, Some h)) by apply dict_get_set_eq.
    constructor.
    + apply (i_max _ _ _ _ _ I).
    + cbn. rewrite (i_max _ _ _ _ _ I). fold idx. rewrite Hidx, app_length. unfold slot_of. cbn [length]. rewrite Zplus_mod_idemp_l. f_equal. lia.
    + exists q, (Datatypes.S kd). rewrite Hans. reflexivity.
    + eapply Permutation_NoDup; [apply Permutation_cons_append|]. constructor; [exact Hnew|apply (i_nodup _ _ _ _ _ I)].
    + intros x Hx. apply in_app_iff in Hx as [Hx|[<-|[]]]; [apply (i_small _ _ _ _ _ I); exact Hx|exact Hh].
    + change (pending s2) with (dict_set idx (r, Some h) (pending s)). apply dict_set_keys. apply (i_keys _ _ _ _ _ I).
    + intros k Hk. change (pending s2) with (dict_set idx (r, Some h) (pending s)) in Hk. rewrite dict_get_none_set in Hk by exact Hnone.
      rewrite map_app, in_app_iff in Hk. rewrite app_length. cbn [length]. destruct Hk as [Hk|[<-|[]]].
      * apply (i_keysE _ _ _ _ _ I) in Hk as (i & Li & ->). exists i. split; [lia|reflexivity].
      * exists (length order). split; [lia|exact Hidx].
    + intros x Hx. destruct (Nat.eq_dec x h) as [->|Ne]; [rewrite iupd_same in Hx; discriminate|]. rewrite iupd_other in Hx by exact Ne.
      destruct (i_fresh _ _ _ _ _ I x Hx) as (F1 & F2 & F3 & F4). split; [exact F1|]. split; [|split; [exact F3|exact F4]].
      rewrite in_app_iff. intros [F|[F|[]]]; auto.
    + intros x Hx. destruct (Nat.eq_dec x h) as [->|Ne].
      * exists (length order). split; [apply nth_new|]. split; [intros F; contradiction|]. intros _. split; [exact Hres|]. exists r. rewrite <- Hidx. exact Hgi.
      * rewrite iupd_other in Hx by exact Ne. destruct (i_held _ _ _ _ _ I x Hx) as (i & Ni & F1 & F2). exists i.
        assert (Li : (i < length order)%nat) by (apply nth_error_Some; congruence).
        split; [rewrite nth_error_app1 by exact Li; exact Ni|]. split.
        -- intros G. destruct (F1 G) as (a' & Ha & Hr). exists a'. split; [rewrite Hans; cbn [snd]; apply in_or_app; auto|exact Hr].
        -- intros G. destruct (F2 G) as (Hr & r' & Hd). split; [exact Hr|]. exists r'. rewrite Hg; [exact Hd|]. rewrite Hidx. intros F. apply islots_apart in F; lia.
    + intros x o k Hx Lx. destruct (Nat.eq_dec x h) as [->|Ne]; [rewrite iupd_same in Hx; discriminate|]. rewrite iupd_other in Hx by exact Ne.
      destruct (i_done _ _ _ _ _ I x o k Hx Lx) as (F1 & F0 & F2). split; [apply in_or_app; auto|]. split; [exact F0|]. destruct (existsb (Nat.eqb x) got); [|exact F2].
      destruct F2 as (a' & Ha & Ho). exists a'. split; [rewrite Hans; cbn [snd]; apply in_or_app; auto|exact Ho].
    + split; [apply iupd_same|]. split; [exact Hng|]. constructor. exists (length order), r, (l_heap w), h1, a.
      split; [apply nth_new|]. rewrite <- Hidx. split; [exact Hgi|]. split; [exact Hcr|]. split; [reflexivity|].
      split; [rewrite Hans; cbn [snd]; apply in_or_app; right; left; reflexivity|reflexivity].
Qed.

(** One look into the buffer. *)
Lemma look_none : forall (s : ex) h v q res, input_of v = Send v -> results_of h s = [] -> pending s <> [] ->
  l_buffer (world s) = Some q -> status q = 0 -> host_status q = 0 -> driver_status q = 0 -> dict_get (pack_id q) (pending s) = None ->
  segment linux_sleeps (Cor [call_loop os h] v res) s s (Over (Threw EAttribute)).
Proof.
  intros s h v q res Hv Hr Hp Hq Q1 Q2 Q3 Hd.
  assert (Hne : is_queue_empty s = false).
  { unfold is_queue_empty, zlen. destruct (pending s); [contradiction|]. cbn [length]. apply Z.eqb_neq. lia. }
  assert (HL : linux_handle sense_of (Some q) s = Err EAttribute).
  { unfold linux_handle. rewrite Q1, Q2, Q3. unfold get_os_data. rewrite Hd. reflexivity. }
  eapply on_step; [unfold next_step; cbn [stack args]; rewrite Hv, icall_resume, Hr; reflexivity|reflexivity|]. cbn [args cres].
  eapply on_step; [unfold next_step, process_pending_response; cbn [stack args input_of resume]; rewrite Hne; reflexivity|reflexivity|]. cbn [args cres].
  eapply on_step; [unfold next_step; cbn [stack args input_of os_receive linux_ioctl_os linux_ioctl_receive resume]; rewrite Hq; reflexivity|reflexivity|]. cbn [args cres].
  assert (HR : resume (linux_receive_handle (A := A) (D := sg_state T * nat) sense_of) (input_of (VData (DObj (WRaw (Some q))))) s = (s, Raise EAttribute)).
  { unfold linux_receive_handle, input_of, resume. rewrite HL. reflexivity. }
  eapply on_step; [unfold next_step; cbn [stack args]; rewrite HR; reflexivity|reflexivity|]. cbn [args cres].
  eapply on_step; [unfold next_step, process_received; cbn [stack args input_of resume]; reflexivity|reflexivity|]. cbn [args cres].
  apply raise_step. unfold next_step. cbn [stack args input_of]. rewrite icall_throw. reflexivity.
Qed.

(** A look that finds the request [x] of the buffer still open. *)
Lemma look_some : forall (s : ex) h v x i r h0 h1 a res, input_of v = Send v -> results_of h s = [] -> (i < count)%nat -> (x < count)%nat ->
  dict_get (slot_of i) (pending s) = Some (r, Some x) -> sgio_create (slot_of i) (cmd x) timeout h0 = (h1, r) ->
  l_buffer (world s) = Some (hdr r) -> l_heap (world s) = completed_mem (hdr r) a h1 -> forall s' g,
  segment linux_sleeps (Cor [call_loop os h] (VData (DBool true)) (RVal (VData (DBool true))))
    (with_log (with_pending s (dict_del (slot_of i) (pending s))) (cb_log s ++ [(x, own x a)])) s' g ->
  segment linux_sleeps (Cor [call_loop os h] v res) s s' g.
Proof.
  intros s h v x i r h0 h1 a res Hv Hr Li Lx Hd Hcr Hq Hh s' g R.
  pose proof (created_sense timeout _ _ _ _ _ Hcr) as [_ [_ [_ Hpid]]].
  assert (Hsl : 0 <= slot_of i < max) by (unfold slot_of; apply Z.mod_pos_bound; lia).
  rewrite c_int_small in Hpid by lia.
  pose proof (created_fresh _ _ _ _ _ _ Hcr) as [Hf1 [Hf2 Hf3]].
  assert (Hne : is_queue_empty s = false).
  { unfold is_queue_empty, zlen. destruct (pending s); [discriminate|]. cbn [length]. apply Z.eqb_neq. lia. }
  assert (HL : linux_handle sense_of (Some (hdr r)) s = Ok (own x a, slot_of i)).
  { destruct (created_bounds timeout _ _ _ _ _ Hcr) as [Hb1 Hb2].
    rewrite (linux_handle_spec sense_of _ _ r (Some x) []).
    - rewrite Hf1, Hf2, Hf3, Hpid. cbn [is_check_condition is_clean]. rewrite Hh.
      rewrite (created_data_read timeout _ _ _ _ _ a Hcr (Hfits x Lx)). reflexivity.
    - rewrite Hpid. exact Hd.
    - rewrite Hf1, Hf3. discriminate.
    - intros p Hp. rewrite Hh. apply Hb1; auto.
    - auto. }
  eapply on_step; [unfold next_step; cbn [stack args]; rewrite Hv, icall_resume, Hr; reflexivity|reflexivity|]. cbn [args cres].
  eapply on_step; [unfold next_step, process_pending_response; cbn [stack args input_of resume]; rewrite Hne; reflexivity|reflexivity|]. cbn [args cres].
  eapply on_step; [unfold next_step; cbn [stack args input_of os_receive linux_ioctl_os linux_ioctl_receive resume]; rewrite Hq; reflexivity|reflexivity|]. cbn [args cres].
  assert (HR : resume (linux_receive_handle (A := A) (D := sg_state T * nat) sense_of) (input_of (VData (DObj (WRaw (Some (hdr r)))))) s =
    (s, Yield (YVal (VData (DPair (own x a) (slot_of i)))) gen_end)).
  { unfold linux_receive_handle, input_of, resume. rewrite HL. reflexivity. }
  eapply on_step; [unfold next_step; cbn [stack args]; rewrite HR; reflexivity|reflexivity|]. cbn [args cres].
  eapply on_step; [reflexivity|reflexivity|]. cbn [args cres].
  assert (Hcomp : complete (own x a) (slot_of i) s = (with_log (with_pending s (dict_del (slot_of i) (pending s))) (cb_log s ++ [(x, own x a)]), Ok tt))
    by (unfold complete; rewrite Hd; reflexivity).
  eapply on_step; [unfold next_step, process_received; cbn [stack args input_of resume]; rewrite Hcomp; reflexivity|reflexivity|]. cbn [args cres].
  eapply on_step; [reflexivity|reflexivity|]. cbn [args cres]. exact R.
Qed.

(** A look that finds the own answer delivered. *)
Lemma look_own : forall (s : ex) h v res a, input_of v = Send v -> results_of h s = [own h a] ->
  segment linux_sleeps (Cor [call_loop os h] v res) s s (Over (user_sees (own h a))).
Proof.
  intros s h v res a Hi Hr.
  unfold own in *. set (d := data_wanted (cmd h) (a_data a)) in *. clearbody d.
  eapply on_step; [unfold next_step; cbn [stack args]; rewrite Hi, icall_resume, Hr; reflexivity|reflexivity|].
  eapply on_step; [unfold next_step; cbn [stack args]; destruct d; reflexivity|reflexivity|]. cbn [args cres].
  replace (Over (user_sees (RespData d))) with (Over (S := ex) (D := dval (wire (option sg_hdr) A)) (Returned (RVal (val_of_data d)))) by (destruct d; reflexivity).
  apply (sg_done linux_sleeps (Cor [] (val_of_data d) (RVal (val_of_data d)))). reflexivity.
Qed.

Lemma member : forall h l, existsb (Nat.eqb h) l = true <-> In h l.
Proof.
  intros h l. rewrite existsb_exists. split; [intros (x & Hx & E); apply Nat.eqb_eq in E; subst; exact Hx|].
  intros H. exists h. split; [exact H|apply Nat.eqb_refl].
Qed.
Lemma not_member : forall h l, existsb (Nat.eqb h) l = false <-> ~ In h l.
Proof. intros h l. rewrite <- member. destruct (existsb (Nat.eqb h) l); intuition congruence. Qed.

Definition taking (h : nat) (got : list nat) (latest : option nat) : list nat :=
  if existsb (Nat.eqb h) got then got else match latest with Some x => x :: got | None => got end.
Definition left_over (h : nat) (got : list nat) (latest : option nat) : option nat :=
  if existsb (Nat.eqb h) got then latest else None.

Lemma finish_ioctl : forall s order got latest ph h g, iinv s order got latest ph -> ph h = IHeld -> igreen order h IHeld g ->
  exists c s1 o, g = Ready c /\ segment linux_sleeps c s s1 (Over o) /\
    iinv s1 order (taking h got latest) (left_over h got latest) (iupd ph h (IDone o 2)).
Proof.
  intros s order got latest ph h g I Hph (ig & _ & ->).
  destruct (i_held _ _ _ _ _ I h Hph) as (i & Ni & Hgot & Hnot).
  assert (Hin : In h order) by (eapply nth_error_In; exact Ni).
  pose proof (i_small _ _ _ _ _ I h Hin) as Hh. pose proof (iorder_few _ _ _ _ _ I) as Few.
  assert (Li : (i < count)%nat) by (assert (i < length order)%nat by (apply nth_error_Some; congruence); lia).
  assert (Pre : forall s1 g1, segment linux_sleeps (Cor [call_loop os h] (VData (DInt 88)) (RVal (VData (DInt 88)))) s s1 g1 ->
    segment linux_sleeps (Cor [gen_end; send_tail (slot_of ig); call_loop os h] (VData (DInt 88)) (RVal (VData (DInt 88)))) s s1 g1).
  { intros s1 g1 R. eapply on_step; [reflexivity|reflexivity|]. cbn [args cres]. eapply on_step; [reflexivity|reflexivity|]. exact R. }
  unfold taking, left_over. destruct (existsb (Nat.eqb h) got) eqn:Eg.
  - apply member in Eg as Gh. destruct (Hgot Gh) as (a & Ha & Hr).
    exists (Cor [gen_end; send_tail (slot_of ig); call_loop os h] (VData (DInt 88)) (RVal (VData (DInt 88)))), s, (user_sees (own h a)).
    split; [reflexivity|]. split; [apply Pre; apply look_own; [reflexivity|exact Hr]|].
    destruct I as [J1 J2 J3 J4 J5 J6 J7 J8 J9 J10 J11]. constructor; auto.
    + intros x Hx. destruct (Nat.eq_dec x h) as [->|Ne]; [rewrite iupd_same in Hx; discriminate|]. rewrite iupd_other in Hx by exact Ne. auto.
    + intros x Hx. destruct (Nat.eq_dec x h) as [->|Ne]; [rewrite iupd_same in Hx; discriminate|]. rewrite iupd_other in Hx by exact Ne. auto.
    + intros x o k Hx Lx. destruct (Nat.eq_dec x h) as [->|Ne].
      * rewrite iupd_same in Hx. inversion Hx; subst o k. split; [exact Hin|]. split; [reflexivity|]. rewrite Eg. eauto.
      * rewrite iupd_other in Hx by exact Ne. auto.
    + destruct latest as [x|]; [|exact J11]. destruct J11 as (F1 & F2 & F3). split; [|split; [exact F2|exact F3]].
      rewrite iupd_other; [exact F1|]. intros ->. contradiction.
  - apply not_member in Eg as Gh. destruct (Hnot Gh) as (Hr & rh & Hdh).
    destruct latest as [x|].
    + destruct (i_latest _ _ _ _ _ I) as (Hx & Nx & [(ix & r & h0 & h1 & a & Nix & Hd & Hcr & Hb & Ha & Hheap)]).
      assert (Lix : (ix < count)%nat) by (assert (ix < length order)%nat by (apply nth_error_Some; congruence); lia).
      assert (Lx : (x < count)%nat) by (apply (i_small _ _ _ _ _ I); eapply nth_error_In; exact Nix).
      set (s1 := with_log (with_pending s (dict_del (slot_of ix) (pending s))) (cb_log s ++ [(x, own x a)])).
      assert (Hlog : forall y, results_of y s1 = results_of y s ++ (if Nat.eqb x y then [own x a] else [])) by (intros y; apply results_logged; reflexivity).
      destruct (i_held _ _ _ _ _ I x Hx) as (ix' & Nix' & _ & Hnotx). destruct (Hnotx Nx) as (Hrx & _).
      assert (Gone : dict_get (slot_of ix) (pending s1) = None) by (change (pending s1) with (dict_del (slot_of ix) (pending s)); apply dict_get_del_eq; apply (i_keys _ _ _ _ _ I)).
      assert (Same : forall k, k <> slot_of ix -> dict_get k (pending s1) = dict_get k (pending s))
        by (intros k Nk; change (pending s1) with (dict_del (slot_of ix) (pending s)); apply dict_get_del_neq; exact Nk).
      pose proof (created_sense timeout _ _ _ _ _ Hcr) as [_ [_ [_ Hpid]]].
      assert (Hsl : 0 <= slot_of ix < max) by (unfold slot_of; apply Z.mod_pos_bound; lia).
      rewrite c_int_small in Hpid by lia.
      pose proof (created_fresh _ _ _ _ _ _ Hcr) as [Hf1 [Hf2 Hf3]].
      set (o := if Nat.eqb x h then user_sees (own x a) else Threw EAttribute : out).
      exists (Cor [gen_end; send_tail (slot_of ig); call_loop os h] (VData (DInt 88)) (RVal (VData (DInt 88)))), s1, o.
      split; [reflexivity|]. split.
      * apply Pre. eapply look_some; [reflexivity|exact Hr|exact Lix|exact Lx|exact Hd|exact Hcr|exact Hb|exact Hheap|]. fold s1. unfold o.
        destruct (Nat.eqb_spec x h) as [->|Nxh].
        -- apply look_own; [reflexivity|]. rewrite Hlog, Hrx, Nat.eqb_refl. reflexivity.
        -- assert (Hih : dict_get (slot_of i) (pending s1) = Some (rh, Some h)).
           { rewrite Same; [exact Hdh|]. intros F. apply islots_apart in F; [|exact Li|exact Lix]. subst i. congruence. }
           assert (R0 : results_of h s1 = []) by (rewrite Hlog, Hr; destruct (Nat.eqb_spec x h); [contradiction|reflexivity]).
           eapply look_none; [reflexivity|exact R0| |exact Hb|exact Hf1|exact Hf2|exact Hf3|].
           ++ intros F. rewrite F in Hih. discriminate.
           ++ rewrite Hpid. exact Gone.
      * assert (Keep : forall y, y <> x -> results_of y s1 = results_of y s).
        { intros y Ny. rewrite Hlog. destruct (Nat.eqb_spec x y); [congruence|]. apply app_nil_r. }
        assert (I' := I). destruct I' as [J1 J2 J3 J4 J5 J6 J7 J8 J9 J10 J11]. constructor; auto.
        -- change (pending s1) with (dict_del (slot_of ix) (pending s)). apply dict_del_keys. exact J6.
        -- intros k Hk. apply J7. change (pending s1) with (dict_del (slot_of ix) (pending s)) in Hk.
           clear - Hk. induction (pending s) as [|[j y] l IH]; [exact Hk|]. cbn in *. destruct (j =? slot_of ix); cbn in *; tauto.
        -- intros y Hy. destruct (Nat.eq_dec y h) as [->|Ne]; [rewrite iupd_same in Hy; discriminate|]. rewrite iupd_other in Hy by exact Ne.
           destruct (J8 y Hy) as (F1 & F2 & F3 & F4). assert (y <> x) by congruence. rewrite Keep by assumption. split; [exact F1|]. split; [exact F2|].
           split; [|exact F4]. intros [F|F]; [congruence|contradiction].
        -- intros y Hy. destruct (Nat.eq_dec y h) as [->|Ne]; [rewrite iupd_same in Hy; discriminate|]. rewrite iupd_other in Hy by exact Ne.
           destruct (J9 y Hy) as (iy & Niy & F1 & F2). exists iy. split; [exact Niy|]. destruct (Nat.eq_dec y x) as [->|Nyx].
           ++ split; [|intros F; exfalso; apply F; left; reflexivity]. intros _. exists a. split; [exact Ha|]. rewrite Hlog, Hrx, Nat.eqb_refl. reflexivity.
           ++ rewrite Keep by exact Nyx. split; [intros [F|F]; [congruence|exact (F1 F)]|]. intros F. destruct F2 as (G1 & ry & G2); [intros G; apply F; right; exact G|].
              split; [exact G1|]. exists ry. rewrite Same; [exact G2|].
              assert (iy < length order)%nat by (apply nth_error_Some; congruence).
              intros Q. apply islots_apart in Q; [|lia|exact Lix]. subst iy. congruence.
        -- intros y o' k Hy Ly. cbn [existsb]. destruct (Nat.eq_dec y h) as [->|Ne].
           ++ rewrite iupd_same in Hy. inversion Hy; subst o' k. split; [exact Hin|]. split; [reflexivity|]. rewrite Eg. unfold o. rewrite Nat.eqb_sym.
              destruct (Nat.eqb_spec x h) as [->|]; cbn [orb]; [|reflexivity]. exists a. split; [exact Ha|reflexivity].
           ++ rewrite iupd_other in Hy by exact Ne. destruct (Nat.eqb_spec y x) as [->|]; [congruence|]. cbn [orb]. apply J10; assumption.
        -- right. exists (hdr r). split; [exact Hb|]. rewrite Hpid. auto.
    + destruct (i_latest _ _ _ _ _ I) as [->|(q & Q1 & Q2 & Q3 & Q4 & Q5)]; [destruct i; discriminate|].
      exists (Cor [gen_end; send_tail (slot_of ig); call_loop os h] (VData (DInt 88)) (RVal (VData (DInt 88)))), s, (Threw EAttribute).
      split; [reflexivity|]. split.
      * apply Pre. eapply look_none; [reflexivity|exact Hr| |exact Q1|exact Q2|exact Q3|exact Q4|exact Q5]. intros F. rewrite F in Hdh. discriminate.
      * assert (I' := I). destruct I' as [J1 J2 J3 J4 J5 J6 J7 J8 J9 J10 J11]. constructor; auto.
        -- intros y Hy. destruct (Nat.eq_dec y h) as [->|Ne]; [rewrite iupd_same in Hy; discriminate|]. rewrite iupd_other in Hy by exact Ne. auto.
        -- intros y Hy. destruct (Nat.eq_dec y h) as [->|Ne]; [rewrite iupd_same in Hy; discriminate|]. rewrite iupd_other in Hy by exact Ne. auto.
        -- intros y o k Hy Ly. destruct (Nat.eq_dec y h) as [->|Ne].
           ++ rewrite iupd_same in Hy. inversion Hy; subst o k. rewrite Eg. split; [exact Hin|]. split; reflexivity.
           ++ rewrite iupd_other in Hy by exact Ne. auto.
Qed.

Definition irank (p : iphase) : nat := match p with IFresh => 0 | IHeld => 1 | IDone _ k => k end.
Lemma igreen_app : forall order l h p g, igreen order h p g -> igreen (order ++ l) h p g.
Proof.
  intros order l h p g H. destruct p; try exact H. destruct H as (i & N & ->). exists i. split; [|reflexivity].
  rewrite nth_error_app1; [exact N|]. apply nth_error_Some. congruence.
Qed.

Lemma turn_ioctl : forall s order got latest ph h c, iinv s order got latest ph -> igreen order h (ph h) (Ready c) ->
  exists s1 p g, segment linux_sleeps c s s1 g /\ irank p = Datatypes.S (irank (ph h)) /\
    if existsb (Nat.eqb h) order
    then igreen order h p g /\ iinv s1 order (taking h got latest) (left_over h got latest) (iupd ph h p)
    else igreen (order ++ [h]) h p g /\ iinv s1 (order ++ [h]) got (Some h) (iupd ph h p).
Proof.
  intros s order got latest ph h c I Hg. destruct (ph h) as [| |o k] eqn:Ph.
  - cbn in Hg. inversion Hg; subst c. destruct (start_ioctl s order got latest ph h I Ph) as (s1 & g & Sg & Ig & I1).
    exists s1, IHeld, g. split; [exact Sg|]. split; [reflexivity|].
    destruct (i_fresh _ _ _ _ _ I h Ph) as (_ & Nin & _). apply not_member in Nin. rewrite Nin. auto.
  - destruct (finish_ioctl s order got latest ph h (Ready c) I Ph Hg) as (c' & s1 & o & Ec & Sg & I1). inversion Ec; subst c'.
    exists s1, (IDone o 2), (Over o). split; [exact Sg|]. split; [reflexivity|].
    destruct (i_held _ _ _ _ _ I h Ph) as (i & Ni & _). apply nth_error_In in Ni. apply member in Ni. rewrite Ni. split; [reflexivity|exact I1].
  - discriminate.
Qed.

Lemma run_ioctl : forall s gs schedule s' gs', greenlets linux_sleeps s gs schedule s' gs' ->
  forall order got latest ph, iinv s order got latest ph -> (forall h, igreen order h (ph h) (gs h)) ->
  exists latest' ph', iinv s' (order ++ first_turns order schedule) (taken order got latest schedule) latest' ph' /\
    (forall h, igreen (order ++ first_turns order schedule) h (ph' h) (gs' h)) /\
    (forall h, irank (ph h) + count_occ Nat.eq_dec schedule h = irank (ph' h))%nat.
Proof.
  induction 1 as [s gs|s gs h c s1 g1 schedule s' gs' Hg Sg _ IH]; intros order got latest ph I Hgs.
  - exists latest, ph. cbn. rewrite app_nil_r. split; [exact I|]. split; [exact Hgs|]. intros h. lia.
  - assert (Hgh := Hgs h). rewrite Hg in Hgh. destruct (turn_ioctl _ _ _ _ _ h c I Hgh) as (s1' & p & g' & Sg' & Rk & Rest).
    destruct (segment_det _ _ _ _ _ Sg _ _ Sg') as [-> ->]. clear Sg'.
    assert (Next : forall order1 got1 latest1, iinv s1' order1 got1 latest1 (iupd ph h p) -> (exists l, order1 = order ++ l) -> igreen order1 h p g' ->
      exists latest' ph', iinv s' (order1 ++ first_turns order1 schedule) (taken order1 got1 latest1 schedule) latest' ph' /\
        (forall x, igreen (order1 ++ first_turns order1 schedule) x (ph' x) (gs' x)) /\
        (forall x, irank (ph x) + count_occ Nat.eq_dec (h :: schedule) x = irank (ph' x))%nat).
    { intros order1 got1 latest1 I1 (l & ->) Ig. destruct (IH _ _ _ _ I1) as (latest' & ph' & I' & G' & R').
      - intros x. unfold iupd. destruct (Nat.eqb_spec x h) as [->|]; [exact Ig|apply igreen_app; apply Hgs].
      - exists latest', ph'. split; [exact I'|]. split; [exact G'|]. intros x. specialize (R' x). cbn [count_occ]. unfold iupd in R'.
        destruct (Nat.eq_dec h x) as [->|Ne].
        + rewrite Nat.eqb_refl in R'. lia.
        + destruct (Nat.eqb_spec x h); [congruence|]. exact R'. }
    cbn [first_turns taken]. destruct (existsb (Nat.eqb h) order); cbn [negb].
    + destruct Rest as [Ig I1]. destruct (Next _ _ _ I1) as (latest' & ph' & I' & G' & R'); [exists []; symmetry; apply app_nil_r|exact Ig|].
      exists latest', ph'. split; [|split; [exact G'|exact R']]. unfold taking, left_over in I'.
      destruct (existsb (Nat.eqb h) got); [exact I'|]. destruct latest; exact I'.
    + destruct Rest as [Ig I1]. destruct (Next _ _ _ I1) as (latest' & ph' & I' & G' & R'); [exists [h]; reflexivity|exact Ig|].
      exists latest', ph'. rewrite (first_turns_same schedule (h :: order) (order ++ [h])) by (intros x; rewrite in_app_iff; cbn [In]; intuition auto).
      rewrite <- app_assoc in I'. cbn [app] in I'. split; [exact I'|]. split; [|exact R'].
      intros x. specialize (G' x). rewrite <- app_assoc in G'. exact G'.
Qed.
End Ioctl.

Section IoctlTheorem.
Context {T A : Type} (sense_of : bytes -> result unit) (tgt : target T) (timeout : Z) (count : nat) (cmd : nat -> scsi_command).
Notation ex := (executer sgio (linux_world (sg_state T * nat))).
Notation os := (linux_ioctl_os (A := A) sense_of (friendly_sg (honest tgt)) timeout).
Lemma ioctl_any_schedule : forall (s : ex) t schedule s' gs',
  (forall h, (h < count)%nat -> fits (cmd h)) -> ioctl_unused count t s -> Z.of_nat count <= max_queue_size s ->
  greenlets linux_sleeps s (spawned count (fun h => call os h (cmd h))) schedule s' gs' ->
  fst (fst (l_dev (world s'))) = fst (answers tgt cmd (first_turns [] schedule) t) /\
  forall h, (h < count)%nat ->
    match gs' h with
    | Over o => count_occ Nat.eq_dec schedule h = 2%nat /\ if existsb (Nat.eqb h) (taken [] [] None schedule)
        then exists a, In (h, a) (snd (answers tgt cmd (first_turns [] schedule) t)) /\ o = user_sees (RespData (data_wanted (cmd h) (a_data a)))
        else o = Threw EAttribute
    | Ready c => (count_occ Nat.eq_dec schedule h <= 1)%nat /\ exists s2 g, segment linux_sleeps c s' s2 g
    end.
Proof.
  intros s t schedule s' gs' Hf (Hp & Hidx & Hm & Hd & Hlog) Hc R.
  assert (Hmax : 1 <= max_queue_size s <= 2 ^ 31) by lia.
  set (ph0 := fun h => if Nat.ltb h count then IFresh (T := T) (A := A) else IDone (Returned (RVal VNone)) 0).
  assert (I0 : iinv (A := A) tgt timeout (max_queue_size s) (packet_index s) count cmd t s [] [] None ph0).
  { constructor; auto.
    - unfold slot_of. cbn [length]. rewrite Z.add_0_r. symmetry. apply Z.mod_small. exact Hidx.
    - cbn [answers fst]. rewrite <- Hd. destruct (l_dev (world s)) as [[x q] k]. exists q, k. reflexivity.
    - constructor.
    - intros h [].
    - rewrite Hp. constructor.
    - rewrite Hp. intros k [].
    - intros h Hh. unfold ph0 in Hh. destruct (Nat.ltb_spec h count) as [L|L]; [|discriminate]. split; [exact L|]. split; [intros []|]. split; [intros []|].
      apply quiet_log. apply Hlog. exact L.
    - intros h Hh. unfold ph0 in Hh. destruct (Nat.ltb h count); discriminate.
    - intros h o k Hh L. unfold ph0 in Hh. apply Nat.ltb_lt in L. rewrite L in Hh. discriminate. }
  destruct (run_ioctl sense_of tgt timeout (max_queue_size s) (packet_index s) count cmd t Hmax Hc Hf _ _ _ _ _ R _ _ _ _ I0) as (latest & ph & I & G & Rk).
  { intros h. unfold spawned, ph0. destruct (Nat.ltb h count); reflexivity. }
  cbn [app] in I, G. split.
  - destruct (i_dev _ _ _ _ _ _ _ _ _ _ _ _ I) as (q & k & ->). reflexivity.
  - intros h Hh. specialize (Rk h). unfold ph0 in Rk at 1. apply Nat.ltb_lt in Hh as Hb. rewrite Hb in Rk. cbn [irank] in Rk. rewrite Nat.add_0_l in Rk.
    specialize (G h). destruct (gs' h) as [c|o] eqn:Eg.
    + split; [destruct (ph h); cbn in Rk, G; try discriminate; lia|].
      destruct (turn_ioctl sense_of tgt timeout (max_queue_size s) (packet_index s) count cmd t Hmax Hc Hf _ _ _ _ _ h c I G) as (s2 & p & g & Sg & _). eauto.
    + destruct (ph h) as [| |o' k] eqn:Ph; cbn in G; [discriminate|destruct G as (? & _ & ?); discriminate|]. inversion G; subst o'.
      destruct (i_done _ _ _ _ _ _ _ _ _ _ _ _ I h o k Ph Hh) as (_ & F0 & F). cbn [irank] in Rk. split; [lia|exact F].
Qed.

Lemma ioctl_runs : forall (s : ex) t schedule,
  (forall h, (h < count)%nat -> fits (cmd h)) -> ioctl_unused count t s -> Z.of_nat count <= max_queue_size s ->
  (forall h, In h schedule -> (h < count)%nat /\ (count_occ Nat.eq_dec schedule h <= 2)%nat) ->
  exists s' gs', greenlets linux_sleeps s (spawned count (fun h => call os h (cmd h))) schedule s' gs'.
Proof.
  intros s t schedule Hf U Hc. induction schedule as [|h schedule IH] using rev_ind; intros H; [eexists _, _; constructor|].
  destruct IH as (s1 & gs1 & R).
  { intros x Hx. destruct (H x) as [L C]; [apply in_or_app; auto|]. rewrite count_occ_app in C. split; [exact L|lia]. }
  destruct (H h) as [L C]; [apply in_or_app; right; left; reflexivity|]. rewrite count_occ_app in C. cbn [count_occ] in C.
  destruct (Nat.eq_dec h h) as [_|]; [|congruence].
  destruct (ioctl_any_schedule s t schedule s1 gs1 Hf U Hc R) as [_ E]. specialize (E h L). destruct (gs1 h) as [c|o] eqn:G.
  - destruct E as (_ & s2 & g & Sg). eexists _, _. eapply greenlets_snoc; [exact R|exact G|exact Sg].
  - destruct E as [E _]. lia.
Qed.
End IoctlTheorem.
