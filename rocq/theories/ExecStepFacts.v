(** One step of the executer, for every OS layer and every state. *)
From Coq Require Import ZArith List Bool Lia.
From Verif Require Import Base BaseFacts Gen SpecGen GenFacts Executer SpecExec ExecFacts SpecCall ExecGenFacts.
Import ListNotations.
Open Scope Z_scope.

Section Steps.
Context {R W O C : Type}.
Notation ex := (executer R W).
Implicit Types (os : os_layer R W O C) (s st : ex).

Lemma full_send : forall os c cb s, max_queue_size s <= zlen (pending s) ->
  call_evaluates (send os c cb) s s (CallRaises EName).
Proof.
  intros. apply send_rejected. unfold send_begin, next_packet_index.
  destruct (Z.leb_spec (max_queue_size s) (zlen (pending s))); [auto|lia].
Qed.

Lemma full_call : forall os me c s, max_queue_size s <= zlen (pending s) ->
  call_evaluates (call os me c) s s (CallRaises EName).
Proof.
  intros. eapply ev_call_raise; [reflexivity| |].
  - apply send_rejected. unfold send_begin, next_packet_index.
    destruct (Z.leb_spec (max_queue_size s) (zlen (pending s))); [reflexivity|lia].
  - apply ev_raise. reflexivity.
Qed.

Lemma begin_ok : forall os c cb s r w0, zlen (pending s) < max_queue_size s ->
  os_prepare_to_send os c (packet_index s) (at_prepare s) = (with_world (at_prepare s) w0, Ok r) ->
  send_begin os c cb s = (with_world (at_send s r cb) w0, Ok (packet_index s, r)).
Proof.
  intros. unfold send_begin, next_packet_index.
  destruct (Z.leb_spec (max_queue_size s) (zlen (pending s))); [lia|].
  unfold at_prepare in H0. rewrite H0. reflexivity.
Qed.

Lemma prepare_fails : forall os c cb s w e, zlen (pending s) < max_queue_size s ->
  os_prepare_to_send os c (packet_index s) (at_prepare s) = (with_world (at_prepare s) w, Err e) ->
  exists s', call_evaluates (send os c cb) s s' (CallRaises e) /\ pending s' = pending s /\ cb_log s' = cb_log s.
Proof.
  intros. exists (with_world (at_prepare s) w). split; [|auto]. apply send_rejected.
  unfold send_begin, next_packet_index.
  destruct (Z.leb_spec (max_queue_size s) (zlen (pending s))); [lia|].
  unfold at_prepare in H0. rewrite H0. reflexivity.
Qed.

Lemma rolled_back : forall os c cb s r w0 w e,
  zlen (pending s) < max_queue_size s ->
  os_prepare_to_send os c (packet_index s) (at_prepare s) = (with_world (at_prepare s) w0, Ok r) ->
  evaluates (os_send os r) (Send VNone) false (with_world (at_send s r cb) w0) (with_world (at_send s r cb) w) (CallRaises e) ->
  exists s', call_evaluates (send os c cb) s s' (CallRaises e) /\ cb_log s' = cb_log s /\
    pending s' = dict_del (packet_index s) (dict_set (packet_index s) (r, cb) (pending s)).
Proof.
  intros. pose proof (begin_ok os c cb s r w0 H H0) as Hb.
  pose proof (send_fails os c cb s _ _ _ _ VNone e true Hb H1) as Hf.
  unfold send_abort in Hf. cbn in Hf. rewrite dict_get_set_eq in Hf. cbn in Hf.
  eexists. split; [exact Hf|]. split; reflexivity.
Qed.

Theorem failed_send : forall os c cb s r w0 w e,
  zlen (pending s) < max_queue_size s ->
  os_prepare_to_send os c (packet_index s) (at_prepare s) = (with_world (at_prepare s) w0, Ok r) ->
  evaluates (os_send os r) (Send VNone) false (with_world (at_send s r cb) w0) (with_world (at_send s r cb) w) (CallRaises e) ->
  NoDup (map fst (pending s)) ->
  exists s', call_evaluates (send os c cb) s s' (CallRaises e) /\ cb_log s' = cb_log s /\
    (dict_get (packet_index s) (pending s) = None -> pending s' = pending s) /\
    dict_get (packet_index s) (pending s') = None /\
    (forall k, k <> packet_index s -> dict_get k (pending s') = dict_get k (pending s)).
Proof.
  intros. destruct (rolled_back _ _ _ _ _ _ _ _ H H0 H1) as [s' [He [Hl Hp]]].
  exists s'. split; auto. split; auto. rewrite Hp. split.
  - intros. apply dict_del_set; auto.
  - split.
    + apply dict_get_del_eq. apply dict_set_keys; auto.
    + intros. rewrite dict_get_del_neq by auto. apply dict_get_set_neq; auto.
Qed.

Theorem accepted_send : forall os c cb s r w0 w v q,
  zlen (pending s) < max_queue_size s ->
  os_prepare_to_send os c (packet_index s) (at_prepare s) = (with_world (at_prepare s) w0, Ok r) ->
  evaluates (os_send os r) (Send VNone) false (with_world (at_send s r cb) w0) (with_world (at_send s r cb) w) (CallReturns v q) ->
  exists s', call_evaluates (send os c cb) s s' (CallReturns v q) /\ cb_log s' = cb_log s /\
    dict_get (packet_index s) (pending s') = Some (r, cb) /\
    (forall k, k <> packet_index s -> dict_get k (pending s') = dict_get k (pending s)) /\
    packet_index s' = (packet_index s + 1) mod max_queue_size s.
Proof.
  intros. exists (with_world (at_send s r cb) w).
  split; [eapply send_succeeds; eauto; apply begin_ok; auto|].
  split; [reflexivity|]. cbn. split; [apply dict_get_set_eq|]. split; [|reflexivity].
  intros. apply dict_get_set_neq; auto.
Qed.

(** Receiving a response, with or without waiting requests. *)
Lemma process_ok_any : forall os st s1 rp pid s2 q p,
  evaluates (os_receive os) (Send VNone) false st s1 (CallReturns (VData (DPair rp pid)) q) ->
  complete rp pid s1 = (s2, Ok tt) ->
  evaluates (process_pending_response os) (Send VNone) p st s2 (CallReturns (VData (DBool true)) true).
Proof.
  intros.
  assert (Hrest : forall q0, evaluates (process_received (R := R) (W := W) (O := O)) (Send (VData (DPair rp pid))) q0 s1 s2 (CallReturns (VData (DBool true)) true)).
  { intros. eapply ev_value; [simpl; rewrite H0; reflexivity|apply vdata_not_exn|].
    apply ev_finish; [reflexivity|apply vdata_not_exn]. }
  destruct (is_queue_empty st) eqn:E.
  - eapply ev_value; [simpl; rewrite E; reflexivity|apply vdata_not_exn|].
    eapply ev_call; [reflexivity|eauto|auto].
  - eapply ev_call; [simpl; rewrite E; reflexivity|eauto|auto].
Qed.
Lemma process_ok : forall os st s1 rp pid s2 q,
  evaluates (os_receive os) (Send VNone) false st s1 (CallReturns (VData (DPair rp pid)) q) ->
  complete rp pid s1 = (s2, Ok tt) ->
  call_evaluates (process_pending_response os) st s2 (CallReturns (VData (DBool true)) true).
Proof. intros. eapply process_ok_any; eauto. Qed.

Lemma process_err_any : forall os st s1 rp pid s2 e q p,
  evaluates (os_receive os) (Send VNone) false st s1 (CallReturns (VData (DPair rp pid)) q) ->
  complete rp pid s1 = (s2, Err e) ->
  evaluates (process_pending_response os) (Send VNone) p st s2 (CallRaises e).
Proof.
  intros.
  assert (Hrest : forall q0, evaluates (process_received (R := R) (W := W) (O := O)) (Send (VData (DPair rp pid))) q0 s1 s2 (CallRaises e)).
  { intros. apply ev_raise. simpl; rewrite H0; reflexivity. }
  destruct (is_queue_empty st) eqn:E.
  - eapply ev_value; [simpl; rewrite E; reflexivity|apply vdata_not_exn|].
    eapply ev_call; [reflexivity|eauto|auto].
  - eapply ev_call; [simpl; rewrite E; reflexivity|eauto|auto].
Qed.
Lemma process_err : forall os st s1 rp pid s2 e q,
  evaluates (os_receive os) (Send VNone) false st s1 (CallReturns (VData (DPair rp pid)) q) ->
  complete rp pid s1 = (s2, Err e) ->
  call_evaluates (process_pending_response os) st s2 (CallRaises e).
Proof. intros. eapply process_err_any; eauto. Qed.

Lemma process_receive_fails : forall os st s1 e,
  evaluates (os_receive os) (Send VNone) false st s1 (CallRaises e) ->
  call_evaluates (process_pending_response os) st s1 (CallRaises e).
Proof.
  intros. unfold call_evaluates. destruct (is_queue_empty st) eqn:E.
  - eapply ev_value; [simpl; rewrite E; reflexivity|apply vdata_not_exn|].
    eapply ev_call_raise; [reflexivity|eauto|apply ev_raise; reflexivity].
  - eapply ev_call_raise; [simpl; rewrite E; reflexivity|eauto|apply ev_raise; reflexivity].
Qed.

Theorem unknown_response : forall os st w rp pid q,
  evaluates (os_receive os) (Send VNone) false st (with_world st w) (CallReturns (VData (DPair rp pid)) q) ->
  dict_get pid (pending st) = None ->
  call_evaluates (process_pending_response os) st (with_world st w) (CallRaises EAsiInternal).
Proof.
  intros. eapply process_err; eauto. unfold complete. cbn. rewrite H0. reflexivity.
Qed.

Theorem no_callback : forall os st w rp pid q r,
  evaluates (os_receive os) (Send VNone) false st (with_world st w) (CallReturns (VData (DPair rp pid)) q) ->
  dict_get pid (pending st) = Some (r, None) ->
  NoDup (map fst (pending st)) ->
  exists s', call_evaluates (process_pending_response os) st s' (CallRaises EType) /\
    cb_log s' = cb_log st /\ dict_get pid (pending s') = None /\
    (forall k, k <> pid -> dict_get k (pending s') = dict_get k (pending st)).
Proof.
  intros. exists (with_pending (with_world st w) (dict_del pid (pending st))).
  split. { eapply process_err; eauto. unfold complete. cbn. rewrite H0. reflexivity. }
  split; [reflexivity|]. cbn. split; [apply dict_get_del_eq; auto|].
  intros. apply dict_get_del_neq; auto.
Qed.

Theorem known_response : forall os st w rp pid q r k,
  evaluates (os_receive os) (Send VNone) false st (with_world st w) (CallReturns (VData (DPair rp pid)) q) ->
  dict_get pid (pending st) = Some (r, Some k) ->
  NoDup (map fst (pending st)) ->
  exists s', call_evaluates (process_pending_response os) st s' (CallReturns (VData (DBool true)) true) /\
    cb_log s' = cb_log st ++ [(k, rp)] /\ dict_get pid (pending s') = None /\
    (forall j, j <> pid -> dict_get j (pending s') = dict_get j (pending st)).
Proof.
  intros. exists (with_log (with_pending (with_world st w) (dict_del pid (pending st))) (cb_log st ++ [(k, rp)])).
  split. { eapply process_ok; eauto. unfold complete. cbn. rewrite H0. reflexivity. }
  split; [reflexivity|]. cbn. split; [apply dict_get_del_eq; auto|].
  intros. apply dict_get_del_neq; auto.
Qed.

(** The event view [ex_do] is what the generators do. *)
Definition verdict (o : call_out (dval O)) : result unit :=
  match o with CallReturns _ _ => Ok tt | CallRaises e => Err e end.

Theorem send_event : forall os c cb s r w0 w o,
  zlen (pending s) < max_queue_size s ->
  os_prepare_to_send os c (packet_index s) (at_prepare s) = (with_world (at_prepare s) w0, Ok r) ->
  evaluates (os_send os r) (Send VNone) false (with_world (at_send s r cb) w0) (with_world (at_send s r cb) w) o ->
  exists s' o', call_evaluates (send os c cb) s s' o' /\
    s' = with_world (fst (ex_do s (EvSend r cb (verdict o)))) w /\
    match snd (ex_do s (EvSend r cb (verdict o))) with
    | ObsSent _ => o' = o
    | ObsSendFailed _ e => o' = CallRaises e
    | _ => False
    end.
Proof.
  intros. pose proof (begin_ok os c cb s r w0 H H0) as Hb.
  cbn [ex_do]. unfold next_packet_index.
  destruct (Z.leb_spec (max_queue_size s) (zlen (pending s))); [lia|].
  destruct o as [v q|e]; cbn [verdict].
  - exists (with_world (at_send s r cb) w), (CallReturns v q).
    split; [eapply send_succeeds; eauto|]. split; reflexivity.
  - pose proof (send_fails os c cb s _ _ _ _ VNone e true Hb H1) as Hf.
    unfold send_abort in *. cbn in Hf |- *. rewrite dict_get_set_eq in Hf |- *. cbn in Hf |- *.
    eexists _, _. split; [exact Hf|]. split; reflexivity.
Qed.

Theorem full_event : forall os c cb s r ov,
  max_queue_size s <= zlen (pending s) ->
  exists e, ex_do s (EvSend r cb ov) = (s, ObsRejected e) /\ call_evaluates (send os c cb) s s (CallRaises e).
Proof.
  intros. exists EName. split; [apply ex_full_rejected; auto|apply full_send; auto].
Qed.

Theorem response_event : forall os st w rp pid q,
  evaluates (os_receive os) (Send VNone) false st (with_world st w) (CallReturns (VData (DPair rp pid)) q) ->
  exists s' o', call_evaluates (process_pending_response os) st s' o' /\
    s' = with_world (fst (ex_do st (EvResp rp pid))) w /\
    match snd (ex_do st (EvResp rp pid)) with
    | ObsCalled _ _ => o' = CallReturns (VData (DBool true)) true
    | ObsRespRaised e => o' = CallRaises e
    | _ => False
    end.
Proof.
  intros. cbn [ex_do].
  destruct (dict_get pid (pending st)) as [[r [k|]]|] eqn:E.
  - assert (Hc : complete rp pid (with_world st w) = (with_world (fst (complete rp pid st)) w, Ok tt)).
    { unfold complete. cbn. rewrite E. reflexivity. }
    eexists _, _. split; [eapply process_ok; eauto|]. unfold complete. rewrite E. split; reflexivity.
  - assert (Hc : complete rp pid (with_world st w) = (with_world (fst (complete rp pid st)) w, Err EType)).
    { unfold complete. cbn. rewrite E. reflexivity. }
    eexists _, _. split; [eapply process_err; eauto|]. unfold complete. rewrite E. split; reflexivity.
  - assert (Hc : complete rp pid (with_world st w) = (with_world (fst (complete rp pid st)) w, Err EAsiInternal)).
    { unfold complete. cbn. rewrite E. reflexivity. }
    eexists _, _. split; [eapply process_err; eauto|]. unfold complete. rewrite E. split; reflexivity.
Qed.

End Steps.

Section Call.
Context {R W O C : Type}.
Notation ex := (executer R W).
Implicit Types (os : os_layer R W O C) (s st : ex).

Theorem call_returns_own : forall os arrivals c me s r w0 w v q foreign f more,
  delivers os arrivals ->
  zlen (pending s) < max_queue_size s ->
  dict_get (packet_index s) (pending s) = None ->
  os_prepare_to_send os c (packet_index s) (at_prepare s) = (with_world (at_prepare s) w0, Ok r) ->
  evaluates (os_send os r) (Send VNone) false (with_world (at_send s r (Some me)) w0) (with_world (at_send s r (Some me)) w) (CallReturns v q) ->
  arrivals w = foreign ++ (packet_index s, f) :: more ->
  NoDup (map fst (pending s)) ->
  NoDup (map fst foreign) -> incl (map fst foreign) (map fst (pending s)) ->
  all_have_callbacks (pending s) ->
  ~ In me (map fst (cb_log s)) ->
  Forall (fun p => snd (snd p) <> Some me) (pending s) ->
  exists s', call_evaluates (call os me c) s s' (outcome_of (f r)) /\
    cb_log s' = cb_log s ++ deliveries (pending s) foreign ++ [(me, f r)] /\
    (forall k, dict_get k (pending s') =
       if in_dec Z.eq_dec k (map fst foreign) then None else dict_get k (pending s)) /\
    arrivals (world s') = more.
Proof.
  intros os arrivals c me s r w0 w v q foreign f more Hd Hroom Hfree Hprep Hsend Harr Hnd Hndf Hincl Hcb Hlog Hme.
  assert (Hp1 : pending (at_send s r (Some me)) = pending s ++ [(packet_index s, (r, Some me))]).
  { cbn. apply dict_get_none_set; auto. }
  assert (Hni : ~ In (packet_index s) (map fst (pending s))).
  { intro Hin. apply in_map_iff in Hin as [[k x] [Hk Hin]]. simpl in Hk; subst.
    apply dict_in_get in Hin; auto. congruence. }
  assert (Hnif : ~ In (packet_index s) (map fst foreign)) by (intro Hin; apply Hni; apply Hincl; auto).
  assert (Hdel : deliveries (pending s ++ [(packet_index s, (r, Some me))]) foreign = deliveries (pending s) foreign).
  { rewrite <- (dict_get_none_set (packet_index s) (r, Some me) (pending s) Hfree).
    unfold deliveries. clear - Hnif. induction foreign as [|[k g] l IH]; simpl in *; auto.
    rewrite dict_get_set_neq by tauto. rewrite IH by tauto. reflexivity. }
  destruct (call_own_response os arrivals c me s (with_world (at_send s r (Some me)) w0) (with_world (at_send s r (Some me)) w)
     (packet_index s) r v q foreign f more) as [s' [H1 [H2 [H3 [H4 _]]]]]; auto.
  - apply begin_ok; auto.
  - cbn. apply dict_get_set_eq.
  - unfold quiet, results_of. clear - Hlog. induction (cb_log s) as [|[k rp] l IH]; simpl in *; auto.
    destruct (Nat.eqb_spec k me); [exfalso; auto|]. apply IH; auto.
  - cbn. apply dict_set_keys; auto.
  - constructor; auto.
  - change (incl (map fst foreign) (map fst (pending (at_send s r (Some me))))). rewrite Hp1, map_app. intros x Hx. apply in_or_app. left. auto.
  - change (all_have_callbacks (pending (at_send s r (Some me)))). rewrite Hp1. unfold all_have_callbacks. apply Forall_app. split; auto.
    constructor; [|constructor]. exists me. reflexivity.
  - rewrite Forall_forall in *. intros p Hp r0. cbn.
    assert (fst p <> packet_index s) by (intro E; apply Hnif; rewrite <- E; apply in_map; auto).
    rewrite dict_get_set_neq by auto. intro Hg. apply dict_get_in in Hg.
    apply (Hme _ Hg). reflexivity.
  - exists s'. split; auto. split.
    + rewrite H2. change (pending (with_world (at_send s r (Some me)) w0)) with (pending (at_send s r (Some me))). rewrite Hp1, Hdel. reflexivity.
    + split; auto. intros k. rewrite H3. cbn [in_dec].
      destruct (in_dec Z.eq_dec k (packet_index s :: map fst foreign)) as [[E|Hin]|Hn].
      * subst k. destruct (in_dec Z.eq_dec (packet_index s) (map fst foreign)); auto.
      * destruct (in_dec Z.eq_dec k (map fst foreign)); [auto|contradiction].
      * destruct (in_dec Z.eq_dec k (map fst foreign)) as [Hi|Hi].
        -- exfalso; apply Hn; right; auto.
        -- cbn. apply dict_get_set_neq. intro E; apply Hn; left; auto.
Qed.

(** Errors of the OS while sending or receiving come out of call. *)
Lemma call_send_error_at : forall os c me s r w0 w e,
  zlen (pending s) < max_queue_size s ->
  os_prepare_to_send os c (packet_index s) (at_prepare s) = (with_world (at_prepare s) w0, Ok r) ->
  evaluates (os_send os r) (Send VNone) false (with_world (at_send s r (Some me)) w0) (with_world (at_send s r (Some me)) w) (CallRaises e) ->
  dict_get (packet_index s) (pending s) = None ->
  call_evaluates (call os me c) s (with_pending (with_world (at_send s r (Some me)) w) (pending s)) (CallRaises e).
Proof.
  intros. pose proof (begin_ok os c (Some me) s r w0 H H0) as Hb.
  assert (Ha : send_abort (packet_index s) e (with_world (at_send s r (Some me)) w)
    = (with_pending (with_world (at_send s r (Some me)) w) (pending s), e)).
  { unfold send_abort. cbn. rewrite dict_get_set_eq. rewrite dict_del_set by auto. reflexivity. }
  rewrite <- (f_equal fst Ha) at 1.
  eapply ev_call_raise; [reflexivity|eapply send_fails; eauto|]. rewrite Ha. apply ev_raise. reflexivity.
Qed.
Theorem call_send_error : forall os c me s r w0 w e,
  zlen (pending s) < max_queue_size s ->
  os_prepare_to_send os c (packet_index s) (at_prepare s) = (with_world (at_prepare s) w0, Ok r) ->
  evaluates (os_send os r) (Send VNone) false (with_world (at_send s r (Some me)) w0) (with_world (at_send s r (Some me)) w) (CallRaises e) ->
  dict_get (packet_index s) (pending s) = None ->
  exists s', call_evaluates (call os me c) s s' (CallRaises e) /\ pending s' = pending s /\ cb_log s' = cb_log s.
Proof. intros. eexists. split; [eapply call_send_error_at; eauto|]. cbn. auto. Qed.

Lemma call_receive_error_at : forall os c me s r w0 w v q w' e,
  zlen (pending s) < max_queue_size s ->
  os_prepare_to_send os c (packet_index s) (at_prepare s) = (with_world (at_prepare s) w0, Ok r) ->
  evaluates (os_send os r) (Send VNone) false (with_world (at_send s r (Some me)) w0) (with_world (at_send s r (Some me)) w) (CallReturns v q) ->
  evaluates (os_receive os) (Send VNone) false (with_world (at_send s r (Some me)) w) (with_world (at_send s r (Some me)) w') (CallRaises e) ->
  ~ In me (map fst (cb_log s)) ->
  call_evaluates (call os me c) s (with_world (at_send s r (Some me)) w') (CallRaises e).
Proof.
  intros os c me s r w0 w v q w' e Hroom Hprep Hsend Hrecv Hlog.
  pose proof (begin_ok os c (Some me) s r w0 Hroom Hprep) as Hb.
  eapply ev_call; [reflexivity|eapply send_succeeds; eauto|].
  eapply ev_call_raise.
  - rewrite call_loop_unfold. simpl.
    assert (Hq : results_of me (with_world (at_send s r (Some me)) w) = []).
    { unfold results_of. cbn. clear - Hlog. induction (cb_log s) as [|[k rp] l IH]; simpl in *; auto.
      destruct (Nat.eqb_spec k me); [exfalso; auto|]. apply IH; auto. }
    rewrite Hq. reflexivity.
  - destruct (is_queue_empty (with_world (at_send s r (Some me)) w)) eqn:E.
    + eapply ev_value; [simpl; rewrite E; reflexivity|apply vdata_not_exn|].
      eapply ev_call_raise; [reflexivity|eauto|apply ev_raise; reflexivity].
    + eapply ev_call_raise; [simpl; rewrite E; reflexivity|eauto|apply ev_raise; reflexivity].
  - apply ev_raise. reflexivity.
Qed.

Theorem receive_error_leaves : forall os c me s r w0 w v q w' e,
  zlen (pending s) < max_queue_size s ->
  os_prepare_to_send os c (packet_index s) (at_prepare s) = (with_world (at_prepare s) w0, Ok r) ->
  evaluates (os_send os r) (Send VNone) false (with_world (at_send s r (Some me)) w0) (with_world (at_send s r (Some me)) w) (CallReturns v q) ->
  evaluates (os_receive os) (Send VNone) false (with_world (at_send s r (Some me)) w) (with_world (at_send s r (Some me)) w') (CallRaises e) ->
  ~ In me (map fst (cb_log s)) ->
  exists s', call_evaluates (call os me c) s s' (CallRaises e) /\
    dict_get (packet_index s) (pending s') = Some (r, Some me) /\ cb_log s' = cb_log s /\
    (forall k, k <> packet_index s -> dict_get k (pending s') = dict_get k (pending s)).
Proof.
  intros os c me s r w0 w v q w' e Hroom Hprep Hsend Hrecv Hlog.
  exists (with_world (at_send s r (Some me)) w'). split; [eapply call_receive_error_at; eauto|].
  split; [cbn; apply dict_get_set_eq|]. split; [reflexivity|]. intros k Hk. cbn. apply dict_get_set_neq; auto.
Qed.
Lemma call_receive_error : forall os c me s r w0 w v q w' e,
  zlen (pending s) < max_queue_size s ->
  os_prepare_to_send os c (packet_index s) (at_prepare s) = (with_world (at_prepare s) w0, Ok r) ->
  evaluates (os_send os r) (Send VNone) false (with_world (at_send s r (Some me)) w0) (with_world (at_send s r (Some me)) w) (CallReturns v q) ->
  evaluates (os_receive os) (Send VNone) false (with_world (at_send s r (Some me)) w) (with_world (at_send s r (Some me)) w') (CallRaises e) ->
  ~ In me (map fst (cb_log s)) ->
  exists s', call_evaluates (call os me c) s s' (CallRaises e) /\
    dict_get (packet_index s) (pending s') = Some (r, Some me) /\ cb_log s' = cb_log s.
Proof.
  intros os c me s r w0 w v q w' e H1 H2 H3 H4 H5.
  destruct (receive_error_leaves _ _ _ _ _ _ _ _ _ _ _ H1 H2 H3 H4 H5) as (s' & A & B & L & _). eauto.
Qed.

(** After that a single-slot executer rejects everything. *)
Theorem call_receive_error_blocks : forall os c me s r w0 w v q w' e,
  pending s = [] -> max_queue_size s = 1 ->
  os_prepare_to_send os c (packet_index s) (at_prepare s) = (with_world (at_prepare s) w0, Ok r) ->
  evaluates (os_send os r) (Send VNone) false (with_world (at_send s r (Some me)) w0) (with_world (at_send s r (Some me)) w) (CallReturns v q) ->
  evaluates (os_receive os) (Send VNone) false (with_world (at_send s r (Some me)) w) (with_world (at_send s r (Some me)) w') (CallRaises e) ->
  ~ In me (map fst (cb_log s)) ->
  exists s', call_evaluates (call os me c) s s' (CallRaises e) /\
    forall c' me', call_evaluates (call os me' c') s' s' (CallRaises EName).
Proof.
  intros os c me s r w0 w v q w' e Hp Hm Hprep Hsend Hrecv Hlog.
  exists (with_world (at_send s r (Some me)) w'). split.
  - eapply call_receive_error_at; eauto. rewrite Hp, Hm. reflexivity.
  - intros c' me'. apply full_call. cbn. rewrite Hp, Hm. cbn. discriminate.
Qed.

(** A command answered at once. *)
Lemma quiet_log : forall me s, ~ In me (map fst (cb_log s)) -> results_of me s = [].
Proof.
  intros me s Hlog. unfold results_of. induction (cb_log s) as [|[k rp] l IH]; simpl in *; auto.
  destruct (Nat.eqb_spec k me); [exfalso; auto|]. apply IH; auto.
Qed.

Theorem call_answered : forall os c me s r w0 w v q w' rp q',
  zlen (pending s) < max_queue_size s ->
  os_prepare_to_send os c (packet_index s) (at_prepare s) = (with_world (at_prepare s) w0, Ok r) ->
  evaluates (os_send os r) (Send VNone) false (with_world (at_send s r (Some me)) w0) (with_world (at_send s r (Some me)) w) (CallReturns v q) ->
  evaluates (os_receive os) (Send VNone) false (with_world (at_send s r (Some me)) w) (with_world (at_send s r (Some me)) w') (CallReturns (VData (DPair rp (packet_index s))) q') ->
  dict_get (packet_index s) (pending s) = None ->
  ~ In me (map fst (cb_log s)) ->
  call_evaluates (call os me c) s
    (Executer (pending s) ((packet_index s + 1) mod max_queue_size s) (max_queue_size s) (cb_log s ++ [(me, rp)]) w')
    (outcome_of rp).
Proof.
  intros os c me s r w0 w v q w' rp q' Hroom Hprep Hsend Hrecv Hfree Hlog.
  pose proof (begin_ok os c (Some me) s r w0 Hroom Hprep) as Hb.
  set (s' := Executer _ _ _ _ _).
  assert (Hc : complete rp (packet_index s) (with_world (at_send s r (Some me)) w') = (s', Ok tt)).
  { unfold complete. cbn. rewrite dict_get_set_eq, dict_del_set by auto. reflexivity. }
  eapply ev_call; [reflexivity|eapply send_succeeds; eauto|].
  eapply ev_call.
  - rewrite call_loop_unfold. simpl.
    assert (Hq : results_of me (with_world (at_send s r (Some me)) w) = []).
    { apply quiet_log. exact Hlog. }
    rewrite Hq. reflexivity.
  - exact (process_ok_any os _ _ rp _ _ _ _ Hrecv Hc).
  - eapply call_loop_end; [|apply vdata_not_exn].
    unfold s'. rewrite (results_of_app me s (cb_log s) eq_refl me rp) by reflexivity.
    rewrite (quiet_log me s Hlog), Nat.eqb_refl. reflexivity.
Qed.

(** A command answered with a packet id nobody waits for. *)
Theorem call_misrouted : forall os c me s r w0 w v q w' rp pid q',
  zlen (pending s) < max_queue_size s ->
  os_prepare_to_send os c (packet_index s) (at_prepare s) = (with_world (at_prepare s) w0, Ok r) ->
  evaluates (os_send os r) (Send VNone) false (with_world (at_send s r (Some me)) w0) (with_world (at_send s r (Some me)) w) (CallReturns v q) ->
  evaluates (os_receive os) (Send VNone) false (with_world (at_send s r (Some me)) w) (with_world (at_send s r (Some me)) w') (CallReturns (VData (DPair rp pid)) q') ->
  pid <> packet_index s -> dict_get pid (pending s) = None ->
  ~ In me (map fst (cb_log s)) ->
  call_evaluates (call os me c) s (with_world (at_send s r (Some me)) w') (CallRaises EAsiInternal).
Proof.
  intros os c me s r w0 w v q w' rp pid q' Hroom Hprep Hsend Hrecv Hne Hfree Hlog.
  pose proof (begin_ok os c (Some me) s r w0 Hroom Hprep) as Hb.
  assert (Hc : complete rp pid (with_world (at_send s r (Some me)) w') = (with_world (at_send s r (Some me)) w', Err EAsiInternal)).
  { unfold complete. cbn. rewrite dict_get_set_neq by auto. rewrite Hfree. reflexivity. }
  eapply ev_call; [reflexivity|eapply send_succeeds; eauto|].
  eapply ev_call_raise.
  - rewrite call_loop_unfold. simpl.
    assert (Hq : results_of me (with_world (at_send s r (Some me)) w) = []).
    { apply quiet_log. exact Hlog. }
    rewrite Hq. reflexivity.
  - exact (process_err_any os _ _ rp _ _ _ _ _ Hrecv Hc).
  - apply ev_raise. reflexivity.
Qed.

End Call.
