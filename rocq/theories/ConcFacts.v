(** Several calls on one Windows executer under async_wait. *)
From Coq Require Import ZArith List Bool Lia Permutation.
From Verif Require Import Base BaseFacts Gen SpecGen GenFacts SpecAsync AsyncFacts Executer SpecCall ExecFacts
  ExecGenFacts ExecStepFacts OsCommon OsLinux OsSolaris OsAix OsWin32 SpecSg SpecDrivers OsFacts LinuxFacts
  SolarisFacts AixFacts WinFacts Left SpecConc.
Import ListNotations.
Open Scope Z_scope.

Lemma put_obj_neq : forall X (l : list X) k j x, j <> k -> nth_error (put_obj k x l) j = nth_error l j.
Proof. induction l as [|y l IH]; intros [|k] [|j] x H; simpl; auto; try congruence. Qed.
Lemma put_obj_length : forall X (l : list X) k x, length (put_obj k x l) = length l.
Proof. induction l as [|y l IH]; intros [|k] x; simpl; auto. Qed.

Lemma spt_fresh : forall c h h' q b, spt_create c h = Ok (h', q, b) ->
  DataBuffer q = b /\ ((b = None /\ h' = h) \/ (exists x, b = Some (length h) /\ h' = h ++ [x])).
Proof.
  intros c h h' q b H. unfold spt_create, alloc in H.
  destruct (16 <? length (command_of c))%nat; [discriminate|].
  destruct c as [cdb n|cdb data].
  - destruct (0 <? n); inversion H; subst; split; auto; right; eauto.
  - destruct (0 <? zlen data); inversion H; subst; split; auto; right; eauto.
Qed.


Section Conc.
Context {T A : Type}.
Context (sense_of : bytes -> result unit) (tgt : target T).
Notation ex := (executer spt (win_world T)).
Notation drv := (honest_win tgt).
Notation aos := (win_async_os (A := A) sense_of drv).
Notation G := (gen ex (dval (wire unit A))).

(** What a call that has been sent and waits for its event looks like. *)
Record waiter : Type := Waiter {
  w_key : nat; w_me : nat; w_cmd : scsi_command; w_req : spt; w_hdr : spt_hdr; w_before : heap; w_after : heap }.
Definition w_idx (w : waiter) : Z := packet_id (w_req w).
Definition w_obj (w : waiter) : nat := spt_obj (w_req w).
Definition w_buf (w : waiter) : option addr := spt_data (w_req w).
Definition w_pending (w : waiter) : Z * (spt * option nat) := (w_idx w, (w_req w, Some (w_me w))).
Definition suspended (w : waiter) : cor ex (dval (wire unit A)) :=
  Cor [gen_end; win_send_append (w_req w); send_tail (w_idx w); call_loop aos (w_me w)] VNone
    (RTok (win_token drv (w_req w))).

Record valid (h : heap) (objs : list spt_hdr) (w : waiter) : Prop := {
  v_create : spt_create (w_cmd w) (w_before w) = Ok (w_after w, w_hdr w, w_buf w);
  v_fits : win_fits (w_cmd w);
  v_obj : nth_error objs (w_obj w) = Some (w_hdr w);
  v_mem : forall p, w_buf w = Some p -> nth_error h p = nth_error (w_after w) p;
  v_len : forall p, w_buf w = Some p -> (p < length h)%nat }.

Definition apart (ws : list waiter) : Prop :=
  NoDup (map w_key ws) /\ NoDup (map w_me ws) /\ NoDup (map w_idx ws) /\ NoDup (map w_obj ws) /\
  NoDup (flat_map (fun w => match w_buf w with Some p => [p] | None => [] end) ws).

Record inv (s : ex) (ws : list waiter) : Prop := {
  i_pending : pending s = map w_pending ws;
  i_incoming : incoming_packets (world s) = [];
  i_valid : Forall (valid (w_heap (world s)) (w_objs (world s))) ws;
  i_apart : apart ws;
  i_log : forall w, In w ws -> ~ In (w_me w) (map fst (cb_log s)) }.

Lemma start_step : forall n k me c (s : ex) ws,
  inv s ws -> (4 <= n)%nat -> zlen ws < max_queue_size s -> ~ In (packet_index s) (map w_idx ws) ->
  ~ In k (map w_key ws) -> ~ In me (map w_me ws) -> ~ In me (map fst (cb_log s)) -> win_fits c ->
  exists w s1, loop false n (coroutine_init (call aos me c)) s = Some (s1, Blocked (suspended w)) /\
    inv s1 (ws ++ [w]) /\ w_key w = k /\ w_me w = me /\ w_cmd w = c /\ w_idx w = packet_index s /\
    max_queue_size s1 = max_queue_size s /\ packet_index s1 = (packet_index s + 1) mod max_queue_size s /\
    cb_log s1 = cb_log s /\ w_dev (world s1) = w_dev (world s).
Proof.
  intros n k me c s ws [Ip Ii Iv Ia Il] Hn Hroom Hidx Hk Hme Hlog Hf.
  destruct (spt_block c (w_heap (world s)) Hf) as (h1 & q & b & Hcr & _).
  destruct (spt_fresh _ _ _ _ _ Hcr) as [Hb Hfr].
  set (r := Spt (length (w_objs (world s))) (packet_index s) b).
  set (w := Waiter k me c r q (w_heap (world s)) h1).
  set (objs := w_objs (world s) ++ [q]).
  assert (Hpl : zlen (pending s) = zlen ws) by (rewrite Ip; unfold zlen; rewrite map_length; reflexivity).
  assert (Hget : dict_get (packet_index s) (pending s) = None).
  { apply dict_get_notin. rewrite Ip, map_map. exact Hidx. }
  exists w, (Executer (pending s ++ [w_pending w]) ((packet_index s + 1) mod max_queue_size s) (max_queue_size s)
    (cb_log s) (WinWorld h1 (put_obj (length (w_objs (world s))) q objs) (w_dev (world s)) [])).
  assert (Hput : put_obj (length (w_objs (world s))) q objs = objs).
  { unfold objs. clear. induction (w_objs (world s)); simpl; f_equal; auto. }
  split.
  { destruct n as [|[|[|[|n]]]]; try lia.
    cbn [loop stack coroutine_init next_step resume call args input_of send].
    unfold send_begin, next_packet_index.
    destruct (Z.leb_spec (max_queue_size s) (zlen (pending s))); [lia|].
    cbn [os_prepare_to_send win_async_os]. unfold win_prepare. cbn [world with_index].
    rewrite Hcr. cbn [pending with_world with_index with_pending os_send win_async_os win_send_async resume stack
      input_of args cres].
    cbn [loop stack next_step resume win_send_async args input_of]. unfold win_async_ioctl at 1.
    cbn [resume world with_pending with_world with_index w_objs spt_obj].
    rewrite nth_new. cbn [dev_start honest_win honest_start w_heap w_dev].
    unfold honest_start. cbn [negb andb ERROR_IO_PENDING]. change (997 =? ERROR_IO_PENDING) with true.
    cbn [andb negb]. unfold suspended, with_world, with_pending, with_index.
    cbn [pending packet_index max_queue_size cb_log world incoming_packets w_objs w_heap w_dev].
    rewrite Ii. rewrite dict_get_none_set by exact Hget. reflexivity. }
  split.
  { constructor.
    - cbn [pending]. rewrite map_app. cbn [map]. rewrite Ip. reflexivity.
    - reflexivity.
    - cbn [world w_heap w_objs]. rewrite Hput. apply Forall_app. split.
      + rewrite Forall_forall in *. intros x Hx. destruct (Iv x Hx) as [V1 V2 V3 V4 V5].
        constructor; auto.
        * unfold objs. rewrite nth_error_app1; auto. apply nth_error_Some. congruence.
        * intros p Hp. rewrite <- V4 by exact Hp. pose proof (V5 p Hp).
          destruct Hfr as [[_ ->]|[y [_ ->]]]; [reflexivity|]. apply nth_error_app1. lia.
        * intros p Hp. pose proof (V5 p Hp).
          destruct Hfr as [[_ ->]|[y [_ ->]]]; [lia|]. rewrite app_length. lia.
      + constructor; [|constructor]. constructor; auto.
        * exact (nth_new _ _ _).
        * unfold w_buf. cbn [w_req w]. unfold r. cbn [spt_data]. intros p Hp.
          destruct Hfr as [[-> _]|[y [-> ->]]]; [discriminate|]. inversion Hp; subst. rewrite app_length. cbn. lia.
    - destruct Ia as (A1 & A2 & A3 & A4 & A5). unfold apart. rewrite !map_app, flat_map_app. cbn [map flat_map].
      assert (Hadd : forall X (l : list X) x, NoDup l -> ~ In x l -> NoDup (l ++ [x])).
      { intros X l x Hl Hx. apply NoDup_rev in Hl. rewrite <- (rev_involutive (l ++ [x])).
        apply NoDup_rev. rewrite rev_app_distr. cbn. constructor; auto. rewrite <- in_rev. exact Hx. }
      repeat split; try (apply Hadd; auto).
      + intros Hin. apply in_map_iff in Hin. destruct Hin as (x & Hx & Hin).
        rewrite Forall_forall in Iv. destruct (Iv x Hin) as [_ _ V3 _ _].
        unfold w_obj in Hx at 2. cbn [w_req w spt_obj r] in Hx. rewrite Hx in V3.
        assert (nth_error (w_objs (world s)) (length (w_objs (world s))) = None) by (apply nth_error_None; lia).
        cbn [spt_obj r] in V3. congruence.
      + unfold w_buf at 2. cbn [w_req w]. unfold r. cbn [spt_data]. destruct b as [p|]; [|rewrite app_nil_r; exact A5].
        rewrite app_nil_r. apply Hadd; auto. intros Hin. apply in_flat_map in Hin. destruct Hin as (x & Hin & Hx).
        rewrite Forall_forall in Iv. destruct (Iv x Hin) as [_ _ _ _ V5].
        destruct (w_buf x) as [p'|]; [|contradiction]. destruct Hx as [->|[]].
        specialize (V5 p eq_refl). destruct Hfr as [[Hx _]|[y [Hx _]]]; [discriminate|]. inversion Hx. lia.
    - cbn [cb_log]. intros x Hx. apply in_app_or in Hx. destruct Hx as [Hx|[<-|[]]]; auto. }
  repeat split; reflexivity.
Qed.

Lemma described_here : forall h objs w, valid h objs w ->
  firstn (Z.to_nat (CdbLength (w_hdr w))) (Cdb (w_hdr w)) = command_of (w_cmd w) /\
  spt_data_out (w_hdr w) h = data_out (w_cmd w).
Proof.
  intros h objs w [V1 V2 V3 V4 V5].
  destruct (spt_described _ _ _ _ _ V1 V2) as (E1 & E2 & _). split; [exact E1|].
  rewrite <- E2. unfold spt_data_out. destruct (spt_fresh _ _ _ _ _ V1) as [Hb _]. rewrite Hb.
  destruct (DataIn (w_hdr w) =? 0); [|reflexivity]. unfold peek.
  destruct (w_buf w) as [p|]; [|reflexivity]. rewrite (V4 p eq_refl). reflexivity.
Qed.

Lemma spt_mem_agrees : forall q a h h1 p, DataBuffer q = Some p -> nth_error h p = nth_error h1 p ->
  nth_error (spt_mem q a h) p = nth_error (spt_mem q a h1) p.
Proof.
  intros q a h h1 p Hq He. unfold spt_mem. destruct (spt_reads q); [|exact He]. rewrite Hq.
  destruct (nth_error h1 p) as [b|] eqn:E1.
  - rewrite (poke_eq _ _ _ _ _ E1), (poke_eq _ _ _ _ _ He). reflexivity.
  - unfold poke. rewrite He, E1. rewrite He, E1. reflexivity.
Qed.

Lemma spt_mem_length : forall q a h, length (spt_mem q a h) = length h.
Proof. intros. unfold spt_mem. destruct (spt_reads q); [apply poke_length|reflexivity]. Qed.

Lemma verdict_here : forall h objs w a (W : win_world T),
  valid h objs w -> (a_status a = 2 -> sense_of (pad 255 (a_sense a)) = Ok tt) ->
  nth_error (w_objs W) (w_obj w) = Some (spt_done (w_hdr w) a) -> w_heap W = spt_mem (w_hdr w) a h ->
  win_handle sense_of (w_req w) W = Ok (win_expected (w_cmd w) a, w_idx w).
Proof.
  intros h objs w a W [V1 V2 V3 V4 V5] Hse Hq HW.
  destruct (spt_described _ _ _ _ _ V1 V2) as (_ & _ & E3 & E4 & E5 & E6).
  destruct (spt_fresh _ _ _ _ _ V1) as [Hb _].
  rewrite (win_handle_spec sense_of W (w_req w) (spt_done (w_hdr w) a)).
  - rewrite E3, HW. cbn [ScsiStatus DataIn spt_done]. unfold win_expected. rewrite <- (E6 a).
    cbn [DataTransferLength spt_done]. change (spt_data (w_req w)) with (w_buf w).
    destruct (w_buf w) as [p|] eqn:Ep; [|reflexivity].
    rewrite (spt_mem_agrees _ a h (w_after w) p Hb) by (apply V4; reflexivity). reflexivity.
  - split; [exact Hq|]. split.
    + intros p Hp. rewrite HW, spt_mem_length. apply V5. exact Hp.
    + cbn [DataIn spt_done]. exact E5.
  - cbn [ScsiStatus spt_done]. rewrite E3. exact Hse.
Qed.

Lemma nodup_remove : forall X (l1 l2 : list X) x, NoDup (l1 ++ x :: l2) -> NoDup (l1 ++ l2).
Proof. intros X l1 l2 x H. eapply NoDup_remove_1; eauto. Qed.

Lemma apart_remove : forall l1 w l2, apart (l1 ++ w :: l2) -> apart (l1 ++ l2).
Proof.
  intros l1 w l2 (A1 & A2 & A3 & A4 & A5). unfold apart.
  rewrite !map_app in *. rewrite !flat_map_app in *. cbn [map flat_map] in *.
  repeat split; try (eapply nodup_remove; eassumption).
  destruct (w_buf w); [|exact A5]. eapply nodup_remove; exact A5.
Qed.

Lemma dict_del_mid : forall X (l1 l2 : list (Z * X)) k v, ~ In k (map fst l1) ->
  dict_get k (l1 ++ (k, v) :: l2) = Some v /\ dict_del k (l1 ++ (k, v) :: l2) = l1 ++ l2.
Proof.
  induction l1 as [|[j x] l1 IH]; intros l2 k v H; simpl in *.
  - rewrite Z.eqb_refl. auto.
  - destruct (Z.eqb_spec j k); [tauto|]. destruct (IH l2 k v) as [H1 H2]; [tauto|]. rewrite H1, H2. auto.
Qed.

Lemma loop_cont : forall S D sync n (c c1 : cor S D) s s1, next_step sync c s = (s1, Continue c1) ->
  loop sync (Datatypes.S n) c s = loop sync n c1 s1.
Proof.
  intros S D sync n c c1 s s1 H. cbn [loop]. destruct (stack c) eqn:E.
  - unfold next_step in H. rewrite E in H. discriminate.
  - rewrite H. reflexivity.
Qed.
Lemma loop_esc : forall S D sync n (c : cor S D) s s1 e, next_step sync c s = (s1, Escape e) -> stack c <> [] ->
  loop sync (Datatypes.S n) c s = Some (s1, Raised e).
Proof. intros S D sync n c s s1 e H Hs. cbn [loop]. destruct (stack c) eqn:E; [congruence|]. rewrite H. reflexivity. Qed.

Definition after_finish (s : ex) (l1 l2 : list waiter) (w : waiter) (t' : T) (a : answer) : ex :=
  Executer (map w_pending (l1 ++ l2)) (packet_index s) (max_queue_size s)
    (cb_log s ++ [(w_me w, win_expected (w_cmd w) a)])
    (WinWorld (spt_mem (w_hdr w) a (w_heap (world s)))
       (put_obj (w_obj w) (spt_done (w_hdr w) a) (w_objs (world s))) t' []).

Lemma finish_step : forall n (s : ex) l1 w l2 t' a,
  inv s (l1 ++ w :: l2) -> (20 <= n)%nat ->
  tgt (w_dev (world s)) (command_of (w_cmd w)) (data_out (w_cmd w)) = (t', a) ->
  a_host a = 0 -> (a_status a = 2 -> sense_of (pad 255 (a_sense a)) = Ok tt) ->
  exists s1 c1, async_io_complete (suspended w) s = (s1, Ok c1) /\
    loop false n c1 s1 = Some (after_finish s l1 l2 w t' a,
      match win_expected (w_cmd w) a with
      | RespData d => Finished (RVal (val_of_data d)) | RespExn e => Raised e end) /\
    inv (after_finish s l1 l2 w t' a) (l1 ++ l2).
Proof.
  intros n s l1 w l2 t' a [Ip Ii Iv Ia Il] Hn Ht Hh Hse.
  assert (Hv : valid (w_heap (world s)) (w_objs (world s)) w).
  { rewrite Forall_forall in Iv. apply Iv. apply in_or_app. right. left. reflexivity. }
  destruct (described_here _ _ _ Hv) as [E1 E2].
  pose proof (v_obj _ _ _ Hv) as Ho.
  set (W1 := WinWorld (spt_mem (w_hdr w) a (w_heap (world s)))
     (put_obj (w_obj w) (spt_done (w_hdr w) a) (w_objs (world s))) t' []).
  exists (with_world s W1), (Cor (stack (suspended w)) (VData (DInt (zlen (a_data a)))) (cres (suspended w))).
  assert (HW : win_handle sense_of (w_req w) W1 = Ok (win_expected (w_cmd w) a, w_idx w)).
  { apply (verdict_here (w_heap (world s)) (w_objs (world s))); auto. cbn [w_objs W1].
    apply put_obj_eq. apply nth_error_Some. congruence. }
  split.
  { unfold async_io_complete, suspended. cbn [cres]. unfold win_token. unfold w_obj in Ho. rewrite Ho.
    cbn [dev_finish honest_win]. unfold honest_finish, spt_run. rewrite E1, E2, Ht, Hh. cbn [Z.eqb].
    rewrite Ii. reflexivity. }
  assert (Hq0 : results_of (w_me w) s = []).
  { apply quiet_log. apply Il. apply in_or_app. right. left. reflexivity. }
  destruct Ia as (A1 & A2 & A3 & A4 & A5).
  assert (Hmid : dict_get (w_idx w) (pending s) = Some (w_req w, Some (w_me w)) /\
                 dict_del (w_idx w) (pending s) = map w_pending (l1 ++ l2)).
  { rewrite Ip, !map_app. cbn [map]. unfold w_pending at 2 5. apply dict_del_mid.
    rewrite map_map. cbn [w_pending fst]. rewrite map_app in A3. cbn [map] in A3.
    apply NoDup_remove_2 in A3. intro Hx. apply A3. apply in_or_app. left. exact Hx. }
  destruct Hmid as [Hget Hdel].
  split.
  { set (rp := win_expected (w_cmd w) a) in *.
    set (sF := after_finish s l1 l2 w t' a).
    set (s1 := with_world s W1).
    set (s2 := with_world s (WinWorld (w_heap W1) (w_objs W1) t' [w_req w])).
    assert (Hne : is_queue_empty s2 = false).
    { unfold is_queue_empty. cbn [pending with_world s2]. rewrite Ip. unfold zlen. rewrite map_length, app_length. cbn. apply Z.eqb_neq. lia. }
    assert (Hrec : forall v, resume (win_receive (A := A) sense_of) (Send v) s2 = (s1, Yield (YVal (VData (DPair rp (w_idx w)))) gen_end)).
    { intros v. unfold win_receive. cbn [resume]. cbn [world with_world incoming_packets s2].
      change [w_req w] with (([] ++ [w_req w]) : list spt). rewrite pop_app.
      cbn [w_heap w_objs w_dev]. fold W1. change (WinWorld (w_heap W1) (w_objs W1) t' []) with W1. rewrite HW. reflexivity. }
    assert (Hcomp : complete rp (w_idx w) s1 = (sF, Ok tt)).
    { unfold complete. cbn [pending with_world s1]. rewrite Hget.
      unfold with_log, with_pending, with_world, sF, after_finish. cbn [pending packet_index max_queue_size cb_log world].
      rewrite Hdel. reflexivity. }
    assert (Hres : results_of (w_me w) sF = [rp]).
    { unfold results_of in *. cbn [cb_log sF after_finish]. rewrite filter_app, map_app, Hq0. cbn.
      rewrite Nat.eqb_refl. reflexivity. }
    assert (Hcl : forall v st, resume (call_loop aos (w_me w)) (Send v) st =
      match results_of (w_me w) st with
      | [] => (st, Yield (YGen (process_pending_response aos)) (call_loop aos (w_me w)))
      | RespExn e :: _ => (st, Raise e)
      | RespData d :: _ => (st, Yield (YVal (val_of_data d)) process_end)
      end).
    { intros v st. rewrite call_loop_unfold at 1. reflexivity. }
    assert (Hs2 : with_world s1 (WinWorld (w_heap (world s1)) (w_objs (world s1)) (w_dev (world s1))
        (incoming_packets (world s1) ++ [w_req w])) = s2) by reflexivity.
    assert (Hq2 : results_of (w_me w) s2 = []) by exact Hq0.
    clearbody s1 s2 sF rp. clear HW Ip Ii Iv Il A1 A2 A3 A4 A5 E1 E2 Hq0.
    do 20 (destruct n as [|n]; [exfalso; lia|]). clear Hn.
    unfold suspended. cbn [stack cres].
    erewrite loop_cont by reflexivity. cbn [args cres].
    erewrite loop_cont by reflexivity. cbn [args cres]. rewrite Hs2.
    erewrite loop_cont by reflexivity. cbn [args cres].
    erewrite loop_cont by (unfold next_step; cbn [stack args input_of]; rewrite Hcl, Hq2; reflexivity).
    erewrite loop_cont by (unfold next_step, process_pending_response; cbn [stack args input_of resume]; rewrite Hne; reflexivity).
    erewrite loop_cont by (unfold next_step; cbn [stack args input_of os_receive win_async_os]; rewrite Hrec; reflexivity).
    erewrite loop_cont by reflexivity. cbn [args cres].
    erewrite loop_cont by (unfold next_step, process_received; cbn [stack args input_of resume]; rewrite Hcomp; reflexivity).
    erewrite loop_cont by reflexivity. cbn [args cres].
    destruct rp as [d|e].
    - erewrite loop_cont by (unfold next_step; cbn [stack args input_of]; rewrite Hcl, Hres; reflexivity).
      erewrite loop_cont by (unfold next_step, process_end; cbn [stack args input_of resume]; destruct d; reflexivity).
      reflexivity.
    - erewrite loop_esc; [reflexivity| |discriminate].
      unfold next_step; cbn [stack args input_of]; rewrite Hcl, Hres; reflexivity. }
  constructor.
  - reflexivity.
  - reflexivity.
  - unfold after_finish. cbn [world w_heap w_objs].
    rewrite Forall_forall in *. intros x Hx.
    assert (Hx2 : In x (l1 ++ w :: l2)) by (apply in_app_or in Hx; apply in_or_app; cbn; tauto).
    destruct (Iv x Hx2) as [V1 V2 V3 V4 V5].
    assert (Hne : w_obj x <> w_obj w).
    { rewrite map_app in A4. cbn [map] in A4. apply NoDup_remove_2 in A4. intro Hxe. apply A4.
      rewrite <- Hxe, <- map_app. apply in_map. exact Hx. }
    constructor; auto.
    + rewrite put_obj_neq by exact Hne. exact V3.
    + intros p Hp. rewrite <- (V4 p Hp). unfold spt_mem. destruct (spt_reads (w_hdr w)); [|reflexivity].
      apply poke_neq. destruct (spt_fresh _ _ _ _ _ (v_create _ _ _ Hv)) as [Hb _]. rewrite Hb. intro Hbp.
      rewrite flat_map_app in A5. cbn [flat_map] in A5. rewrite Hbp in A5. cbn [app] in A5.
      apply NoDup_remove_2 in A5. apply A5. rewrite <- flat_map_app. apply in_flat_map. exists x. split; [exact Hx|].
      rewrite Hp. left. reflexivity.
    + intros p Hp. rewrite spt_mem_length. auto.
  - eapply apart_remove. exact (conj A1 (conj A2 (conj A3 (conj A4 A5)))).
  - unfold after_finish. cbn [cb_log]. intros x Hx.
    assert (Hx2 : In x (l1 ++ w :: l2)) by (apply in_app_or in Hx; apply in_or_app; cbn; tauto).
    rewrite map_app, in_app_iff. cbn. intros [H|[H|[]]]; [exact (Il x Hx2 H)|].
    rewrite map_app in A2. cbn [map] in A2. apply NoDup_remove_2 in A2. apply A2. rewrite H, <- map_app.
    apply in_map. exact Hx.
Qed.

(** ** The reactor's table *)
Definition entry (w : waiter) : nat * cor ex (dval (wire unit A)) := (w_key w, suspended w).
Definition fresh (x : nat * (nat * scsi_command)) : nat * cor ex (dval (wire unit A)) :=
  (fst x, coroutine_init (call aos (fst (snd x)) (snd (snd x)))).

Lemma lookup_mid : forall X (l1 l2 : list (nat * X)) k v, ~ In k (map fst l1) ->
  lookup_key k (l1 ++ (k, v) :: l2) = Some v.
Proof.
  intros X l1 l2 k v H. rewrite lookup_app_none.
  - unfold lookup_key. simpl. rewrite Nat.eqb_refl. reflexivity.
  - destruct (lookup_key k l1) eqn:E; [|reflexivity]. apply lookup_keys_in in E. contradiction.
Qed.
Lemma update_absent : forall X (l : list (nat * X)) k v, ~ In k (map fst l) -> update_key k v l = l.
Proof.
  intros X l k v H. unfold update_key. rewrite <- (map_id l) at 2. apply map_ext_in. intros [j x] Hin. cbn [fst].
  destruct (Nat.eqb_spec j k); [|reflexivity]. exfalso. apply H. subst. apply in_map_iff. exists (k, x). auto.
Qed.
Lemma remove_absent : forall X (l : list (nat * X)) k, ~ In k (map fst l) -> remove_key k l = l.
Proof.
  intros X l k H. unfold remove_key. induction l as [|[j x] l IH]; cbn [filter fst]; [reflexivity|].
  cbn in H. destruct (Nat.eqb_spec j k); [tauto|]. cbn [negb]. f_equal. apply IH. tauto.
Qed.
Lemma update_mid : forall X (l1 l2 : list (nat * X)) k v v', ~ In k (map fst l1) -> ~ In k (map fst l2) ->
  update_key k v' (l1 ++ (k, v) :: l2) = l1 ++ (k, v') :: l2.
Proof.
  intros X l1 l2 k v v' H1 H2. pose proof (update_absent _ l1 k v' H1) as E1. pose proof (update_absent _ l2 k v' H2) as E2.
  unfold update_key in *. rewrite map_app. cbn [map fst]. rewrite Nat.eqb_refl, E1, E2. reflexivity.
Qed.
Lemma remove_mid : forall X (l1 l2 : list (nat * X)) k v, ~ In k (map fst l1) -> ~ In k (map fst l2) ->
  remove_key k (l1 ++ (k, v) :: l2) = l1 ++ l2.
Proof.
  intros X l1 l2 k v H1 H2. pose proof (remove_absent _ l1 k H1) as E1. pose proof (remove_absent _ l2 k H2) as E2.
  unfold remove_key in *. rewrite filter_app. cbn [filter fst]. rewrite Nat.eqb_refl. cbn [negb]. rewrite E1, E2. reflexivity.
Qed.

Lemma index_free : forall i0 max (l : nat), 0 < max -> Z.of_nat l < max ->
  ~ In ((i0 + Z.of_nat l) mod max) (map (fun j => (i0 + Z.of_nat j) mod max) (seq 0 l)).
Proof.
  intros i0 max l Hm Hl Hin. apply in_map_iff in Hin. destruct Hin as (j & Hj & Hin). apply in_seq in Hin.
  assert (Hd : (Z.of_nat l - Z.of_nat j) mod max = 0).
  { replace (Z.of_nat l - Z.of_nat j) with ((i0 + Z.of_nat l) - (i0 + Z.of_nat j)) by lia.
    rewrite Zminus_mod, <- Hj, Z.sub_diag. apply Z.mod_0_l. lia. }
  rewrite Z.mod_small in Hd by lia. lia.
Qed.

Lemma run_start : forall rest ws (s : ex) n i0 done,
  inv s ws -> (4 <= n)%nat -> 0 <= i0 < max_queue_size s -> zlen ws + zlen rest <= max_queue_size s ->
  map w_idx ws = map (fun j => (i0 + Z.of_nat j) mod max_queue_size s) (seq 0 (length ws)) ->
  packet_index s = (i0 + zlen ws) mod max_queue_size s ->
  NoDup (map w_key ws ++ map fst rest) -> NoDup (map w_me ws ++ map (fun x => fst (snd x)) rest) ->
  (forall x, In x rest -> ~ In (fst (snd x)) (map fst (cb_log s)) /\ win_fits (snd (snd x))) ->
  exists ws' s1, run_ready n (map fst rest) (map entry ws ++ map fresh rest) done s
      = (s1, Some (Ok (map entry (ws ++ ws'), done))) /\
    inv s1 (ws ++ ws') /\ map (fun w => (w_key w, (w_me w, w_cmd w))) ws' = rest /\
    w_dev (world s1) = w_dev (world s) /\ max_queue_size s1 = max_queue_size s /\
    0 <= packet_index s1 < max_queue_size s1.
Proof.
  induction rest as [|[k [me c]] rest IH]; intros ws s n i0 done Hinv Hn Hi0 Hlen Hidx Hpi Hk Hm Hr.
  - exists [], s. cbn [map run_ready]. rewrite !app_nil_r. rewrite Hpi.
    pose proof (Z.mod_pos_bound (i0 + zlen ws) (max_queue_size s)). auto 10 with zarith.
  - cbn [map fst snd] in *.
    assert (Hz : zlen ((k, (me, c)) :: rest) = zlen rest + 1) by (unfold zlen; cbn [length]; lia).
    assert (Hz0 : 0 <= zlen rest) by (unfold zlen; lia).
    rewrite Hz in Hlen.
    destruct (Hr (k, (me, c)) (or_introl eq_refl)) as [Hlog Hf]. cbn [fst snd] in Hlog, Hf.
    destruct (start_step n k me c s ws) as (w & s1 & L & Hinv1 & W1 & W2 & W3 & W4 & S1 & S2 & S3 & S4); auto.
    { lia. }
    { rewrite Hpi, Hidx. unfold zlen. apply index_free; [lia|]. unfold zlen in *. lia. }
    { intro Hx. apply NoDup_remove_2 in Hk. apply Hk. apply in_or_app. left. exact Hx. }
    { intro Hx. apply NoDup_remove_2 in Hm. apply Hm. apply in_or_app. left. exact Hx. }
    destruct (IH (ws ++ [w]) s1 n i0 done) as (ws' & s2 & R & Hinv2 & Hrest & Hdev & Hmax & Hpix); auto.
    { rewrite S1. lia. }
    { rewrite S1. unfold zlen in *. rewrite app_length. cbn [length]. lia. }
    { rewrite S1, map_app, app_length. cbn [length map]. rewrite seq_app, map_app, Hidx, W4, Hpi. cbn [seq map plus].
      unfold zlen. reflexivity. }
    { rewrite S1, S2, Hpi. unfold zlen. rewrite app_length. cbn [length].
      rewrite Zplus_mod_idemp_l. f_equal. lia. }
    { rewrite map_app, <- app_assoc. cbn [map app]. rewrite W1. exact Hk. }
    { rewrite map_app, <- app_assoc. cbn [map app]. rewrite W2. exact Hm. }
    { intros x Hx. rewrite S3. apply Hr. right. exact Hx. }
    exists (w :: ws'), s2. split.
    { cbn [run_ready map]. change (fresh (k, (me, c))) with (k, coroutine_init (call aos me c)).
      apply NoDup_remove_2 in Hk.
      assert (K1 : ~ In k (map fst (map entry ws))).
      { rewrite map_map. cbn [entry fst]. intro Hx. apply Hk. apply in_or_app. left. exact Hx. }
      assert (K2 : ~ In k (map fst (map fresh rest))).
      { rewrite map_map. cbn [fresh fst]. intro Hx. apply Hk. apply in_or_app. right. exact Hx. }
      rewrite lookup_mid by exact K1. rewrite L. rewrite update_mid; [|exact K1|exact K2].
      rewrite map_app in R. cbn [map] in R. rewrite <- app_assoc in R. cbn [app] in R.
      unfold entry at 2 in R. rewrite W1 in R. rewrite R. rewrite <- app_assoc. reflexivity. }
    rewrite <- app_assoc in Hinv2. cbn [app] in Hinv2.
    split; [exact Hinv2|]. split.
    { cbn [map]. rewrite W1, W2, W3, Hrest. reflexivity. }
    split; [congruence|]. split; [congruence|exact Hpix].
Qed.

Lemma filter_keys : forall l1 w l2, NoDup (map w_key (l1 ++ w :: l2)) ->
  filter (fun j => negb (Nat.eqb j (w_key w))) (map w_key (l1 ++ w :: l2)) = map w_key (l1 ++ l2).
Proof.
  intros l1 w l2 H. rewrite map_app in *. cbn [map] in *. rewrite filter_app. cbn [filter].
  rewrite Nat.eqb_refl. cbn [negb]. rewrite map_app. apply NoDup_remove_2 in H.
  assert (Hf : forall l, ~ In (w_key w) l -> filter (fun j => negb (Nat.eqb j (w_key w))) l = l).
  { induction l as [|x l IH]; intros Hx; cbn [filter]; [reflexivity|].
    destruct (Nat.eqb_spec x (w_key w)); [exfalso; apply Hx; left; auto|]. cbn [negb]. f_equal. apply IH.
    intro. apply Hx. right. assumption. }
  rewrite !Hf; auto; intro Hx; apply H; apply in_or_app; auto.
Qed.

Definition served_result (p : nat * option bytes) : nat * res ex (dval (wire unit A)) :=
  (fst p, RVal (val_of_data (snd p))).

Lemma finish_all : forall n choose cs, (20 <= n)%nat -> fair_choice choose -> intelligible tgt sense_of ->
  forall l ws m cmds tbl done0 (s0 s : ex) done, length ws = l ->
  run_ready n cmds tbl done0 s0 = (s, Some (Ok (map entry ws, done))) ->
  inv s ws -> (length ws <= m)%nat ->
  (forall w, In w ws -> nth_error cs (w_key w) = Some (w_cmd w)) ->
  let order := signalled m choose (map w_key ws) in
  Permutation order (map w_key ws) /\
  match serve tgt cs order (w_dev (world s)) with
  | (t', Err e) => exists s' l', react n m choose cmds tbl done0 s0 = (s', RRaised e) /\ w_dev (world s') = t' /\
      react_left n m choose cmds tbl done0 s0 = map entry l' /\ inv s' l' /\
      (length l' + answered tgt cs order (w_dev (world s)) = length ws)%nat /\
      (forall w, In w l' -> In w ws) /\
      max_queue_size s' = max_queue_size s /\ packet_index s' = packet_index s
  | (t', Ok got) => exists s', react n m choose cmds tbl done0 s0 = (s', RDone (done ++ map served_result got)) /\
      inv s' [] /\ w_dev (world s') = t' /\ map fst got = order
  end.
Proof.
  intros n choose cs Hn Hfair Hint. induction l as [|l IH]; intros ws m cmds tbl done0 s0 s done Hl Hrun Hinv Hm Hcs order.
  - destruct ws as [|w ws]; [|discriminate]. unfold order. cbn [map]. destruct m; cbn [signalled serve].
    all: split; [constructor|]; exists s; cbn [react]; rewrite Hrun; cbn [map]; rewrite app_nil_r; auto.
  - destruct ws as [|w0 ws0]; [discriminate|]. destruct m as [|m]; [cbn in Hm; lia|].
    set (k := choose m (map w_key (w0 :: ws0))).
    assert (Hk : In k (map w_key (w0 :: ws0))) by (apply Hfair; discriminate).
    apply in_map_iff in Hk. destruct Hk as (w & Hwk & Hin).
    apply in_split in Hin. destruct Hin as (l1 & l2 & Hws).
    assert (Hord : order = k :: signalled m choose (map w_key (l1 ++ l2))).
    { unfold order. cbn [map signalled]. fold (map w_key (w0 :: ws0)). change (w_key w0 :: map w_key ws0) with (map w_key (w0 :: ws0)).
      fold k. f_equal. f_equal. rewrite Hws, <- Hwk. apply filter_keys. rewrite <- Hws.
      destruct (i_apart _ _ Hinv) as [A1 _]. exact A1. }
    assert (Hnd : NoDup (map w_key (l1 ++ w :: l2))).
    { rewrite <- Hws. destruct (i_apart _ _ Hinv) as [A1 _]. exact A1. }
    clearbody order. rewrite Hws. subst order. rewrite Hws in Hrun, Hinv.
    destruct (tgt (w_dev (world s)) (command_of (w_cmd w)) (data_out (w_cmd w))) as [t' a] eqn:Ht.
    destruct (Hint (w_dev (world s)) (command_of (w_cmd w)) (data_out (w_cmd w))) as [Hh Hse].
    rewrite Ht in Hh, Hse. cbn [snd] in Hh, Hse.
    destruct (finish_step n s l1 w l2 t' a Hinv Hn Ht Hh Hse) as (s1 & c1 & Hio & Hloop & Hinv2).
    assert (Hnk : ~ In (w_key w) (map fst (map entry l1)) /\ ~ In (w_key w) (map fst (map entry l2))).
    { rewrite !map_map. cbn [entry fst]. rewrite map_app in Hnd. cbn [map] in Hnd. apply NoDup_remove_2 in Hnd.
      split; intro Hx; apply Hnd; apply in_or_app; auto. }
    destruct Hnk as [K1 K2].
    assert (Hreact : react n (Datatypes.S m) choose cmds tbl done0 s0 =
      react n m choose [k] (map entry l1 ++ (k, c1) :: map entry l2) done s1).
    { cbn [react]. rewrite Hrun.
      assert (Hmap : map fst (map entry (l1 ++ w :: l2)) = map w_key (w0 :: ws0))
        by (rewrite Hws, map_map; reflexivity).
      assert (Hne : exists x y, map entry (l1 ++ w :: l2) = x :: y) by (destruct l1; cbn; eauto).
      destruct Hne as (x & y & Hxy). rewrite Hxy. cbv zeta. rewrite <- Hxy, Hmap. fold k. rewrite <- Hwk.
      rewrite map_app. cbn [map]. unfold entry at 2 5. rewrite lookup_mid by exact K1. rewrite Hio.
      rewrite update_mid by assumption. reflexivity. }
    assert (Hleft : react_left n (Datatypes.S m) choose cmds tbl done0 s0 =
      react_left n m choose [k] (map entry l1 ++ (k, c1) :: map entry l2) done s1).
    { cbn [react_left]. rewrite Hrun.
      assert (Hmap : map fst (map entry (l1 ++ w :: l2)) = map w_key (w0 :: ws0))
        by (rewrite Hws, map_map; reflexivity).
      assert (Hne : exists x y, map entry (l1 ++ w :: l2) = x :: y) by (destruct l1; cbn; eauto).
      destruct Hne as (x & y & Hxy). rewrite Hxy. cbv zeta. rewrite <- Hxy, Hmap. fold k. rewrite <- Hwk.
      rewrite map_app. cbn [map]. unfold entry at 2 5. rewrite lookup_mid by exact K1. rewrite Hio.
      rewrite update_mid by assumption. reflexivity. }
    assert (Hlen2 : length (l1 ++ l2) = l).
    { rewrite Hws in Hl. rewrite app_length in *. cbn [length] in Hl. lia. }
    assert (Hrun2 : forall d, win_expected (w_cmd w) a = RespData d ->
      run_ready n [k] (map entry l1 ++ (k, c1) :: map entry l2) done s1 =
      (after_finish s l1 l2 w t' a, Some (Ok (map entry (l1 ++ l2), done ++ [served_result (k, d)])))).
    { intros d Hd. cbn [run_ready]. rewrite <- Hwk. rewrite lookup_mid by exact K1. rewrite Hloop, Hd.
      rewrite remove_mid by assumption. rewrite map_app. reflexivity. }
    assert (Hm2 : (length (l1 ++ l2) <= m)%nat) by (rewrite Hws in Hm; rewrite app_length in *; cbn [length] in Hm; lia).
    assert (Hcs2 : forall w', In w' (l1 ++ l2) -> nth_error cs (w_key w') = Some (w_cmd w')).
    { intros w' Hw'. apply Hcs. rewrite Hws. apply in_app_or in Hw'. apply in_or_app. cbn. tauto. }
    assert (Hc : nth_error cs k = Some (w_cmd w)).
    { rewrite <- Hwk. apply Hcs. rewrite Hws. apply in_or_app. right. left. reflexivity. }
    assert (Hdev : w_dev (world (after_finish s l1 l2 w t' a)) = t') by reflexivity.
    cbn [serve answered]. rewrite Hc, Ht.
    destruct (win_expected (w_cmd w) a) as [d|e] eqn:He.
    + destruct (IH (l1 ++ l2) m [k] _ done s1 _ _ Hlen2 (Hrun2 d eq_refl) Hinv2 Hm2 Hcs2) as [HP HR].
      rewrite Hdev in HR. split.
      { rewrite (map_app w_key l1 (w :: l2)). cbn [map]. rewrite Hwk. apply Permutation_cons_app. rewrite <- map_app. exact HP. }
      destruct (serve tgt cs (signalled m choose (map w_key (l1 ++ l2))) t') as [t2 [got|e2]].
      * destruct HR as (s' & R1 & R2 & R3 & R4). exists s'. rewrite Hreact, R1. rewrite <- app_assoc.
        split; [reflexivity|]. split; [exact R2|]. split; [exact R3|]. cbn [map fst]. rewrite R4. reflexivity.
      * destruct HR as (s' & l' & R1 & R2 & R3 & R4 & R5 & R6 & R7 & R8). exists s', l'. rewrite Hreact, R1, Hleft, R3.
        rewrite app_length in *. cbn [length] in *.
        split; [reflexivity|]. split; [exact R2|]. split; [reflexivity|]. split; [exact R4|]. split; [lia|].
        split; [|split; [exact R7|exact R8]].
        intros w' Hw'. apply R6, in_app_or in Hw'. apply in_or_app. cbn. tauto.
    + split.
      { rewrite (map_app w_key l1 (w :: l2)). cbn [map]. rewrite Hwk. apply Permutation_cons_app.
        assert (Hperm : forall m l, NoDup l -> (length l <= m)%nat -> Permutation (signalled m choose l) l).
        { clear - Hfair. induction m as [|m IHm]; intros l Hnd Hl; destruct l as [|x l]; cbn [signalled]; try constructor; [cbn in Hl; lia|].
          set (j := choose m (x :: l)). assert (Hj : In j (x :: l)) by (apply Hfair; discriminate).
          apply in_split in Hj. destruct Hj as (a1 & a2 & Ha). rewrite Ha in *.
          assert (Hf : filter (fun i => negb (Nat.eqb i j)) (a1 ++ j :: a2) = a1 ++ a2).
          { apply NoDup_remove_2 in Hnd. rewrite filter_app. cbn [filter]. rewrite Nat.eqb_refl. cbn [negb].
            assert (Hf : forall b, ~ In j b -> filter (fun i => negb (Nat.eqb i j)) b = b).
            { induction b as [|z b IHb]; intros Hx; cbn [filter]; [reflexivity|].
              destruct (Nat.eqb_spec z j); [exfalso; apply Hx; left; auto|]. cbn [negb]. f_equal. apply IHb.
              intro. apply Hx. right. assumption. }
            rewrite !Hf; auto; intro Hx; apply Hnd; apply in_or_app; auto. }
          rewrite Hf. apply Permutation_cons_app. apply IHm; [eapply NoDup_remove_1; eauto|].
          rewrite app_length in *. cbn [length] in *. lia. }
        rewrite <- map_app. apply Hperm; [|rewrite map_length; exact Hm2].
        rewrite map_app in *. cbn [map] in Hnd. eapply NoDup_remove_1; eauto. }
      exists (after_finish s l1 l2 w t' a), (l1 ++ l2).
      assert (Hrun3 : run_ready n [k] (map entry l1 ++ (k, c1) :: map entry l2) done s1 =
        (after_finish s l1 l2 w t' a, Some (Err e))).
      { cbn [run_ready]. rewrite <- Hwk. rewrite lookup_mid by exact K1. rewrite Hloop. reflexivity. }
      split; [rewrite Hreact; destruct m as [|m]; cbn [react]; rewrite Hrun3; reflexivity|].
      split; [exact Hdev|]. split.
      { rewrite Hleft.
        assert (Hl3 : run_ready_left n [k] (map entry l1 ++ (k, c1) :: map entry l2) s1 = map entry (l1 ++ l2)).
        { cbn [run_ready_left]. rewrite <- Hwk. rewrite lookup_mid by exact K1. rewrite Hloop.
          rewrite remove_mid by assumption. rewrite map_app. reflexivity. }
        destruct m as [|m]; cbn [react_left]; rewrite Hrun3; exact Hl3. }
      split; [exact Hinv2|]. rewrite !app_length. cbn [length].
      split; [lia|]. split; [|split; reflexivity].
      intros w' Hw'. apply in_app_or in Hw'. apply in_or_app. cbn. tauto.
Qed.

Definition calls_of (mcs : list (nat * scsi_command)) : list G := map (fun p => call aos (fst p) (snd p)) mcs.

Lemma init_entries : forall mcs n,
  combine (seq n (length (calls_of mcs))) (map coroutine_init (calls_of mcs)) =
  map fresh (combine (seq n (length mcs)) mcs).
Proof.
  unfold calls_of. induction mcs as [|[me c] mcs IH]; intros n; cbn; [reflexivity|].
  f_equal. apply IH.
Qed.

Lemma collect_map : forall ks (done : list (nat * res ex (dval (wire unit A)))) f,
  (forall k, In k ks -> lookup_key k done = Some (f k)) -> collect ks done = Ok (map f ks).
Proof.
  induction ks as [|k ks IH]; intros done f H; cbn [collect map]; [reflexivity|].
  rewrite (H k) by (left; reflexivity). rewrite (IH done f) by (intros; apply H; right; assumption). reflexivity.
Qed.

Lemma lookup_in : forall X (l : list (nat * X)) k v, NoDup (map fst l) -> In (k, v) l -> lookup_key k l = Some v.
Proof.
  unfold lookup_key. induction l as [|[j x] l IH]; intros k v Hnd Hin; [contradiction|].
  cbn [map fst] in Hnd. inversion Hnd; subst. cbn [find fst]. destruct Hin as [Hin|Hin].
  - inversion Hin; subst. rewrite Nat.eqb_refl. reflexivity.
  - destruct (Nat.eqb_spec j k); [|auto]. subst. exfalso. apply H1. apply in_map_iff. exists (k, v). auto.
Qed.

Theorem async_calls_left : forall (s : ex) mcs choose n m,
  pending s = [] -> incoming_packets (world s) = [] ->
  0 <= packet_index s < max_queue_size s -> zlen mcs <= max_queue_size s ->
  NoDup (map fst mcs) -> (forall me, In me (map fst mcs) -> ~ In me (map fst (cb_log s))) ->
  Forall win_fits (map snd mcs) -> fair_choice choose -> intelligible tgt sense_of ->
  (20 <= n)%nat -> (length mcs <= m)%nat ->
  let order := signalled m choose (seq 0 (length mcs)) in
  Permutation order (seq 0 (length mcs)) /\
  match serve tgt (map snd mcs) order (w_dev (world s)) with
  | (t', Err e) => exists s' l', async_wait n m choose (calls_of mcs) s = (s', Some (Err e)) /\ w_dev (world s') = t' /\
      async_wait_left n m choose (calls_of mcs) s = map entry l' /\ inv s' l' /\
      (length l' + answered tgt (map snd mcs) order (w_dev (world s)) = length mcs)%nat /\
      (forall w, In w l' -> In (w_me w) (map fst mcs)) /\
      max_queue_size s' = max_queue_size s /\ 0 <= packet_index s' < max_queue_size s
  | (t', Ok got) => exists s' results, async_wait n m choose (calls_of mcs) s = (s', Some (Ok results)) /\
      w_dev (world s') = t' /\ pending s' = [] /\ incoming_packets (world s') = [] /\
      length results = length mcs /\
      forall i d, In (i, d) got -> nth_error results i = Some (RVal (val_of_data d))
  end.
Proof.
  intros s mcs choose n m Hp Hi Hidx Hlen Hnd Hlog Hf Hfair Hint Hn Hm order.
  set (rest := combine (seq 0 (length mcs)) mcs).
  assert (Hrf : map fst rest = seq 0 (length mcs)) by apply combine_seq_keys.
  assert (Hrs : map snd rest = mcs).
  { unfold rest. generalize 0%nat. clear. induction mcs as [|x l IH]; intros k; cbn; [reflexivity|]. f_equal. apply IH. }
  assert (Hrl : length rest = length mcs) by (rewrite <- Hrs; rewrite map_length; reflexivity).
  destruct (run_start rest [] s n (packet_index s) []) as (ws & s1 & R & Hinv & Hrest & Hdev & Hmax & Hpix).
  { constructor; cbn; auto. repeat split; constructor. }
  { lia. }
  { exact Hidx. }
  { unfold zlen in *. rewrite Hrl. cbn [length]. lia. }
  { reflexivity. }
  { unfold zlen. cbn [length]. rewrite Z.add_0_r, Z.mod_small by lia. reflexivity. }
  { cbn [map app]. rewrite Hrf. apply seq_NoDup. }
  { cbn [map app]. rewrite <- (map_map snd fst). rewrite Hrs. exact Hnd. }
  { intros x Hx. assert (Hx2 : In (snd x) mcs) by (rewrite <- Hrs; apply in_map; exact Hx). split.
    - apply Hlog. apply in_map. exact Hx2.
    - rewrite Forall_forall in Hf. apply Hf. apply in_map. exact Hx2. }
  cbn [app map] in R, Hinv.
  assert (Hkeys : map w_key ws = seq 0 (length mcs)).
  { rewrite <- Hrf, <- Hrest, map_map. reflexivity. }
  assert (Hcs : forall w, In w ws -> nth_error (map snd mcs) (w_key w) = Some (w_cmd w)).
  { intros w Hw. assert (Hx : In (w_key w, (w_me w, w_cmd w)) rest).
    { rewrite <- Hrest. apply in_map_iff. exists w. auto. }
    unfold rest in Hx. apply in_combine_seq in Hx. destruct Hx as [_ Hx]. rewrite Nat.sub_0_r in Hx.
    apply (map_nth_error snd) in Hx. exact Hx. }
  destruct (finish_all n choose (map snd mcs) Hn Hfair Hint (length ws) ws m (map fst rest) (map fresh rest) [] s s1 []
    eq_refl R Hinv) as [HP HR]; auto.
  { rewrite <- (map_length w_key), Hkeys, seq_length. exact Hm. }
  rewrite Hkeys, Hdev in *. fold order in HP, HR. split; [exact HP|].
  assert (Hw : async_wait n m choose (calls_of mcs) s =
    match react n m choose (map fst rest) (map fresh rest) [] s with
    | (s1, RBudget) => (s1, None)
    | (s1, RRaised e) => (s1, Some (Err e))
    | (s1, RDone done) => (s1, Some (collect (seq 0 (length mcs)) done))
    end).
  { unfold async_wait, keys. rewrite init_entries. fold rest. rewrite Hrf.
    replace (length (calls_of mcs)) with (length mcs) by (unfold calls_of; rewrite map_length; reflexivity). reflexivity. }
  destruct (serve tgt (map snd mcs) order (w_dev (world s))) as [t' [got|e]].
  - destruct HR as (s' & R1 & [I1 I2 _ _ _] & R3 & R4). rewrite R1 in Hw. cbn [app] in Hw.
    assert (Hnd2 : NoDup (map fst (map served_result got))).
    { rewrite map_map. cbn [served_result fst]. change (map (fun x => fst x) got) with (map fst got). rewrite R4.
      apply (Permutation_NoDup (Permutation_sym HP)). apply seq_NoDup. }
    set (f := fun i => match lookup_key i got with Some d => RVal (val_of_data d) | None => RVal VNone end : res ex (dval (wire unit A))).
    assert (Hndg : NoDup (map fst got)).
    { rewrite R4. apply (Permutation_NoDup (Permutation_sym HP)). apply seq_NoDup. }
    rewrite (collect_map _ _ f) in Hw.
    + exists s', (map f (seq 0 (length mcs))). split; [exact Hw|]. split; [exact R3|].
      split; [rewrite I1; reflexivity|]. split; [exact I2|]. split; [rewrite map_length, seq_length; reflexivity|].
      intros i d Hin.
      assert (Hi2 : In i (seq 0 (length mcs))).
      { apply (Permutation_in i HP). rewrite <- R4. apply in_map_iff. exists (i, d). auto. }
      apply in_seq in Hi2.
      assert (Hnth : nth_error (seq 0 (length mcs)) i = Some i).
      { rewrite (nth_error_nth' _ 0%nat) by (rewrite seq_length; lia). rewrite seq_nth by lia. reflexivity. }
      apply (map_nth_error f) in Hnth. rewrite Hnth. unfold f. rewrite (lookup_in _ got i d Hndg Hin). reflexivity.
    + intros k Hk. assert (Hk2 : In k (map fst got)).
      { rewrite R4. apply (Permutation_in k (Permutation_sym HP)). exact Hk. }
      apply in_map_iff in Hk2. destruct Hk2 as ([k' d] & Hkk & Hin). cbn [fst] in Hkk. subst k'.
      unfold f. rewrite (lookup_in _ got k d Hndg Hin).
      apply lookup_in; [exact Hnd2|]. apply in_map_iff. exists (k, d). auto.
  - destruct HR as (s' & l' & R1 & R2 & R3 & R4 & R5 & R6 & R7 & R8). exists s', l'. rewrite R1 in Hw.
    split; [exact Hw|]. split; [exact R2|]. split.
    { unfold async_wait_left, keys. rewrite init_entries. fold rest.
      replace (length (calls_of mcs)) with (length mcs) by (unfold calls_of; rewrite map_length; reflexivity).
      rewrite <- Hrf. exact R3. }
    split; [exact R4|]. split.
    { rewrite R5. rewrite <- (map_length w_key), Hkeys, seq_length. reflexivity. }
    split.
    { intros w Hw'. apply R6 in Hw'. assert (Hx : In (w_key w, (w_me w, w_cmd w)) rest).
      { rewrite <- Hrest. apply in_map_iff. exists w. auto. }
      apply (in_map snd) in Hx. rewrite Hrs in Hx. apply (in_map fst) in Hx. exact Hx. }
    split; [congruence|]. rewrite R8. rewrite <- Hmax. exact Hpix.
Qed.

Theorem async_calls : forall (s : ex) mcs choose n m,
  pending s = [] -> incoming_packets (world s) = [] ->
  0 <= packet_index s < max_queue_size s -> zlen mcs <= max_queue_size s ->
  NoDup (map fst mcs) -> (forall me, In me (map fst mcs) -> ~ In me (map fst (cb_log s))) ->
  Forall win_fits (map snd mcs) -> fair_choice choose -> intelligible tgt sense_of ->
  (20 <= n)%nat -> (length mcs <= m)%nat ->
  let order := signalled m choose (seq 0 (length mcs)) in
  Permutation order (seq 0 (length mcs)) /\
  match serve tgt (map snd mcs) order (w_dev (world s)) with
  | (t', Err e) => exists s', async_wait n m choose (calls_of mcs) s = (s', Some (Err e)) /\ w_dev (world s') = t'
  | (t', Ok got) => exists s' results, async_wait n m choose (calls_of mcs) s = (s', Some (Ok results)) /\
      w_dev (world s') = t' /\ pending s' = [] /\ incoming_packets (world s') = [] /\
      length results = length mcs /\
      forall i d, In (i, d) got -> nth_error results i = Some (RVal (val_of_data d))
  end.
Proof.
  intros s mcs choose n m Hp Hi Hidx Hlen Hnd Hlog Hf Hfair Hint Hn Hm order.
  destruct (async_calls_left s mcs choose n m Hp Hi Hidx Hlen Hnd Hlog Hf Hfair Hint Hn Hm) as [P H].
  split; [exact P|]. fold order in H. destruct (serve tgt (map snd mcs) order (w_dev (world s))) as [t' [got|e]]; [exact H|].
  destruct H as (s' & l' & H1 & H2 & _). exists s'. auto.
Qed.

End Conc.
