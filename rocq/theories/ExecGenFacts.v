(** Proofs about the executer's generators. *)
From Coq Require Import ZArith List Bool Lia Permutation.
From Verif Require Import Base BaseFacts Gen SpecGen GenFacts Executer SpecExec ExecFacts SpecCall.
Import ListNotations.
Open Scope Z_scope.

Section Facts.
Context {R W O C : Type}.
Notation ex := (executer R W).
Implicit Types (os : os_layer R W O C) (s st : ex).

Lemma vnone_not_exn : not_exn (@VNone (dval O)).
Proof. intros e H; discriminate. Qed.
Lemma vdata_not_exn : forall d : dval O, not_exn (VData d).
Proof. intros d e H; discriminate. Qed.
Hint Resolve vnone_not_exn vdata_not_exn : core.

Lemma evaluates_returns_not_exn : forall (S D : Type) (g : gen S D) i p (s s' : S) o,
  evaluates g i p s s' o -> match o with CallReturns v _ => not_exn v | CallRaises _ => True end.
Proof. induction 1; auto. Qed.

Lemma send_rejected : forall os c cb s s1 e v p,
  send_begin os c cb s = (s1, Err e) ->
  evaluates (send os c cb) (Send v) p s s1 (CallRaises e).
Proof. intros. apply ev_raise. simpl. rewrite H. reflexivity. Qed.

Lemma send_succeeds : forall os c cb s s1 s2 idx r v0 v q p,
  send_begin os c cb s = (s1, Ok (idx, r)) ->
  evaluates (os_send os r) (Send VNone) false s1 s2 (CallReturns v q) ->
  evaluates (send os c cb) (Send v0) p s s2 (CallReturns v q).
Proof.
  intros. eapply ev_call; [simpl; rewrite H; reflexivity|eauto|].
  apply ev_finish; [reflexivity|]. apply (evaluates_returns_not_exn _ _ _ _ _ _ _ _ H0).
Qed.

Lemma send_fails : forall os c cb s s1 s2 idx r v0 e p,
  send_begin os c cb s = (s1, Ok (idx, r)) ->
  evaluates (os_send os r) (Send VNone) false s1 s2 (CallRaises e) ->
  evaluates (send os c cb) (Send v0) p s (fst (send_abort idx e s2)) (CallRaises (snd (send_abort idx e s2))).
Proof.
  intros. eapply ev_call_raise; [simpl; rewrite H; reflexivity|eauto|].
  apply ev_raise. simpl. destruct (send_abort idx e s2); reflexivity.
Qed.

Lemma process_succeeds : forall os st s1 rp pid s2 v p,
  pending st <> [] ->
  evaluates (os_receive os) (Send VNone) false st s1 (CallReturns (VData (DPair rp pid)) true) ->
  complete rp pid s1 = (s2, Ok tt) ->
  evaluates (process_pending_response os) (Send v) p st s2 (CallReturns (VData (DBool true)) true).
Proof.
  intros. eapply ev_call.
  - simpl. unfold is_queue_empty, zlen. destruct (pending st); [congruence|]. reflexivity.
  - eauto.
  - eapply ev_value; [simpl; rewrite H1; reflexivity|auto|].
    apply ev_finish; auto.
Qed.

Lemma process_raises : forall os st s1 rp pid s2 v p e,
  pending st <> [] ->
  evaluates (os_receive os) (Send VNone) false st s1 (CallReturns (VData (DPair rp pid)) true) ->
  complete rp pid s1 = (s2, Err e) ->
  evaluates (process_pending_response os) (Send v) p st s2 (CallRaises e).
Proof.
  intros. eapply ev_call.
  - simpl. unfold is_queue_empty, zlen. destruct (pending st); [congruence|]. reflexivity.
  - eauto.
  - apply ev_raise. simpl. rewrite H1. reflexivity.
Qed.

Lemma complete_some : forall rp pid s r k,
  dict_get pid (pending s) = Some (r, Some k) ->
  complete rp pid s = (with_log (with_pending s (dict_del pid (pending s))) (cb_log s ++ [(k, rp)]), Ok tt).
Proof. intros. unfold complete. rewrite H. reflexivity. Qed.

Lemma deliveries_del : forall (d : dict (R * option nat)) pid l,
  NoDup (map fst d) -> ~ In pid (map fst l) -> deliveries (dict_del pid d) l = deliveries d l.
Proof.
  intros. unfold deliveries. induction l as [|[q f] l IH]; simpl in *; auto.
  rewrite dict_get_del_neq by tauto. rewrite IH by tauto. reflexivity.
Qed.

Lemma all_cb_get : forall (d : dict (R * option nat)) pid r cb,
  all_have_callbacks d -> dict_get pid d = Some (r, cb) -> exists k, cb = Some k.
Proof.
  intros. apply dict_get_in in H0. unfold all_have_callbacks in H. rewrite Forall_forall in H.
  destruct (H _ H0) as [k Hk]. simpl in Hk. eauto.
Qed.

(** Processing a list of responses one after the other. *)
Inductive processed os : ex -> list (Z * (R -> resp)) -> ex -> Prop :=
| pr_nil : forall st, processed os st [] st
| pr_cons : forall st st1 st2 pid f l,
    pending st <> [] ->
    (forall v p, evaluates (process_pending_response os) (Send v) p st st1 (CallReturns (VData (DBool true)) true)) ->
    processed os st1 l st2 ->
    processed os st ((pid, f) :: l) st2.

Lemma process_all : forall os arrivals l more st,
  delivers os arrivals ->
  arrivals (world st) = l ++ more ->
  NoDup (map fst (pending st)) ->
  NoDup (map fst l) ->
  incl (map fst l) (map fst (pending st)) ->
  all_have_callbacks (pending st) ->
  exists st', processed os st l st' /\
    cb_log st' = cb_log st ++ deliveries (pending st) l /\
    arrivals (world st') = more /\
    packet_index st' = packet_index st /\ max_queue_size st' = max_queue_size st /\
    NoDup (map fst (pending st')) /\
    (forall k, dict_get k (pending st') = if in_dec Z.eq_dec k (map fst l) then None else dict_get k (pending st)) /\
    (length (pending st') + length l = length (pending st))%nat /\
    all_have_callbacks (pending st').
Proof.
  intros os arrivals l more. induction l as [|[pid f] l IH]; intros st Hd Ha Hnd Hndl Hincl Hcb.
  - exists st. split; [constructor|]. rewrite app_nil_r. repeat split; auto.
  - simpl in Ha. inversion Hndl as [|? ? Hni Hndl']; subst.
    assert (Hin : In pid (map fst (pending st))) by (apply Hincl; left; auto).
    assert (exists x, dict_get pid (pending st) = Some x) as [[r cb] Hg].
    { apply in_map_iff in Hin as [[k x] [Hk Hin]]. simpl in Hk; subst.
      exists x. apply dict_in_get; auto. }
    destruct (all_cb_get _ _ _ _ Hcb Hg) as [k ->].
    destruct (Hd st pid f (l ++ more) r (Some k) Ha Hg) as [w' [Hw Hev]].
    set (st1 := with_log (with_pending (with_world st w') (dict_del pid (pending st))) (cb_log st ++ [(k, f r)])).
    assert (Hc : complete (f r) pid (with_world st w') = (st1, Ok tt)).
    { exact (complete_some (f r) pid (with_world st w') r k Hg). }
    assert (Hne : pending st <> []) by (intro E; rewrite E in Hin; contradiction).
    destruct (IH st1) as [st' [H1 [H2 [H3 [H4 [H5 [H6 [H7 [H8 H9]]]]]]]]]; auto.
    + apply dict_del_keys; auto.
    + intros q Hq. simpl. assert (q <> pid) by (intro; subst; contradiction).
      assert (Hq' : In q (map fst (pending st))) by (apply Hincl; right; auto).
      apply in_map_iff in Hq' as [[j x] [Hj Hq']]. simpl in Hj; subst.
      apply dict_in_get in Hq'; auto. rewrite <- (dict_get_del_neq pid) in Hq' by auto.
      apply dict_get_in in Hq'. apply in_map_iff. exists (q, x); auto.
    + simpl. apply dict_del_forall; auto.
    + exists st'. split.
      { econstructor; eauto. intros v p. eapply process_succeeds; eauto. }
      simpl in H2. split.
      { rewrite H2. unfold st1; simpl. rewrite <- app_assoc. f_equal.
        simpl. rewrite Hg. simpl. f_equal. apply deliveries_del; auto. }
      split; auto. split; [auto|]. split; [auto|]. split; [auto|]. split.
      { intros j. rewrite H7. simpl. destruct (in_dec Z.eq_dec j (map fst l)).
        - destruct (Z.eq_dec pid j); auto. 
        - destruct (Z.eq_dec pid j).
          + subst. apply dict_get_del_eq; auto.
          + rewrite dict_get_del_neq; auto. }
      split; [|auto]. unfold st1 in H8; simpl in H8. simpl.
      pose proof (dict_del_length_some _ _ _ Hg). lia.
Qed.

Lemma gen_eta : forall S D (g : gen S D), g = match g with Gen f => Gen f end.
Proof. intros. destruct g; reflexivity. Qed.

Lemma wait_unfold : forall os, wait os =
  Gen (fun i s => match i with
    | Throw e => (s, Raise e)
    | Send _ =>
      if is_queue_empty s then (s, Stop)
      else (s, Yield (YGen (process_pending_response os)) (wait os))
    end).
Proof. intros. rewrite (gen_eta _ _ (wait os)) at 1. reflexivity. Qed.

Lemma wait_processed : forall os st l st', processed os st l st' -> pending st' = [] ->
  forall v q, not_exn v -> exists v' q', evaluates (wait os) (Send v) q st st' (CallReturns v' q') /\
    (l <> [] -> v' = VData (DBool true) /\ q' = true) /\ (l = [] -> v' = v /\ q' = q).
Proof.
  induction 1; intros Hp v q Hv.
  - exists v, q. split; [|auto].
    + rewrite wait_unfold. apply ev_finish; auto. simpl. unfold is_queue_empty. rewrite Hp. reflexivity.
    + split; [congruence|auto].
  - destruct (IHprocessed Hp (VData (DBool true)) true (vdata_not_exn _)) as [v' [q' [He [H2 H3]]]].
    exists v', q'. split.
    + eapply ev_call; [|apply H0|exact He].
      rewrite wait_unfold at 1. simpl. unfold is_queue_empty, zlen.
      destruct (pending st); [congruence|]. reflexivity.
    + split; [|congruence]. intros _. destruct l as [|x l]; [apply H3; auto|apply H2; congruence].
Qed.

Lemma length_zero_nil : forall A (l : list A), length l = 0%nat -> l = [].
Proof. intros; destruct l; auto; discriminate. Qed.

Theorem wait_drains : forall os arrivals l more st,
  delivers os arrivals ->
  arrivals (world st) = l ++ more ->
  NoDup (map fst (pending st)) ->
  Permutation (map fst l) (map fst (pending st)) ->
  all_have_callbacks (pending st) ->
  exists st' v q, call_evaluates (wait os) st st' (CallReturns v q) /\
    pending st' = [] /\
    cb_log st' = cb_log st ++ deliveries (pending st) l /\
    arrivals (world st') = more.
Proof.
  intros os arrivals l more st Hd Ha Hnd Hperm Hcb.
  destruct (process_all os arrivals l more st Hd Ha Hnd) as [st' [H1 [H2 [H3 [H4 [H5 [H6 [H7 [H8 H9]]]]]]]]]; auto.
  - eapply Permutation_NoDup; [apply Permutation_sym; exact Hperm|auto].
  - intros x Hx. eapply Permutation_in; eauto.
  - assert (Hnil : pending st' = []).
    { apply length_zero_nil. apply Permutation_length in Hperm. rewrite !map_length in Hperm. lia. }
    destruct (wait_processed os st l st' H1 Hnil VNone true vnone_not_exn) as [v [q [He _]]].
    exists st', v, q. auto.
Qed.

Lemma wait_empty : forall os st, pending st = [] ->
  call_evaluates (wait os) st st (CallReturns VNone true).
Proof.
  intros. unfold call_evaluates. rewrite wait_unfold. apply ev_finish; auto.
  simpl. unfold is_queue_empty. rewrite H. reflexivity.
Qed.

(** call *)
Lemma call_loop_unfold : forall os me, call_loop os me =
  Gen (fun i s => match i with
    | Throw e => (s, Raise e)
    | Send _ =>
      match results_of me s with
      | [] => (s, Yield (YGen (process_pending_response os)) (call_loop os me))
      | RespExn e :: _ => (s, Raise e)
      | RespData d :: _ => (s, Yield (YVal (val_of_data d)) process_end)
      end
    end).
Proof. intros. rewrite (gen_eta _ _ (call_loop os me)) at 1. reflexivity. Qed.

Lemma results_of_app : forall me st l, cb_log st = l -> forall k rp s',
  cb_log s' = l ++ [(k, rp)] ->
  results_of me s' = results_of me st ++ (if Nat.eqb k me then [rp] else []).
Proof.
  intros. unfold results_of. rewrite H0, H, filter_app, map_app. simpl.
  destruct (Nat.eqb k me); reflexivity.
Qed.

Definition quiet (me : nat) (st : ex) : Prop := results_of me st = [].

(** The loop of call, when the responses in [l] belong to others. *)
Inductive processed_quiet os me : ex -> list (Z * (R -> resp)) -> ex -> Prop :=
| pq_nil : forall st, processed_quiet os me st [] st
| pq_cons : forall st st1 st2 pid f l,
    quiet me st ->
    (forall v p, evaluates (process_pending_response os) (Send v) p st st1 (CallReturns (VData (DBool true)) true)) ->
    processed_quiet os me st1 l st2 ->
    processed_quiet os me st ((pid, f) :: l) st2.

Lemma call_loop_quiet : forall os me st l st' o, processed_quiet os me st l st' ->
  (forall v q, not_exn v -> evaluates (call_loop os me) (Send v) q st' st' o) ->
  forall v q, not_exn v -> evaluates (call_loop os me) (Send v) q st st' o.
Proof.
  induction 1; intros Hend v q Hv; auto.
  eapply ev_call; [|apply H0|].
  - rewrite call_loop_unfold at 1. simpl. unfold quiet in H. rewrite H. reflexivity.
  - apply IHprocessed_quiet; auto.
Qed.

Lemma call_loop_end : forall os me st rp rest,
  results_of me st = rp :: rest ->
  forall v q, not_exn v -> evaluates (call_loop os me) (Send v) q st st (outcome_of rp).
Proof.
  intros. destruct rp as [[b|]|e]; simpl.
  - eapply ev_value; [rewrite call_loop_unfold; simpl; rewrite H; reflexivity|simpl; auto|].
    simpl. apply ev_finish; auto.
  - eapply ev_value; [rewrite call_loop_unfold; simpl; rewrite H; reflexivity|simpl; auto|].
    simpl. apply ev_finish; auto.
  - apply ev_raise. rewrite call_loop_unfold; simpl. rewrite H. reflexivity.
Qed.

Lemma processed_quiet_all : forall os arrivals me l more st,
  delivers os arrivals ->
  arrivals (world st) = l ++ more ->
  NoDup (map fst (pending st)) ->
  NoDup (map fst l) ->
  incl (map fst l) (map fst (pending st)) ->
  all_have_callbacks (pending st) ->
  quiet me st ->
  Forall (fun p => forall r, dict_get (fst p) (pending st) <> Some (r, Some me)) l ->
  exists st', processed_quiet os me st l st' /\ quiet me st' /\
    cb_log st' = cb_log st ++ deliveries (pending st) l /\
    arrivals (world st') = more /\
    packet_index st' = packet_index st /\ max_queue_size st' = max_queue_size st /\
    NoDup (map fst (pending st')) /\
    (forall k, dict_get k (pending st') = if in_dec Z.eq_dec k (map fst l) then None else dict_get k (pending st)) /\
    (length (pending st') + length l = length (pending st))%nat /\
    all_have_callbacks (pending st').
Proof.
  intros os arrivals me l more. induction l as [|[pid f] l IH]; intros st Hd Ha Hnd Hndl Hincl Hcb Hq Hme.
  - exists st. split; [constructor|]. rewrite app_nil_r. repeat split; auto.
  - simpl in Ha. inversion Hndl as [|? ? Hni Hndl']; subst. inversion Hme as [|? ? Hme1 Hme2]; subst.
    simpl in Hme1.
    assert (Hin : In pid (map fst (pending st))) by (apply Hincl; left; auto).
    assert (exists x, dict_get pid (pending st) = Some x) as [[r cb] Hg].
    { apply in_map_iff in Hin as [[k x] [Hk Hin]]. simpl in Hk; subst.
      exists x. apply dict_in_get; auto. }
    destruct (all_cb_get _ _ _ _ Hcb Hg) as [k ->].
    assert (Hk : k <> me) by (intro; subst; eapply Hme1; eauto).
    destruct (Hd st pid f (l ++ more) r (Some k) Ha Hg) as [w' [Hw Hev]].
    set (st1 := with_log (with_pending (with_world st w') (dict_del pid (pending st))) (cb_log st ++ [(k, f r)])).
    assert (Hc : complete (f r) pid (with_world st w') = (st1, Ok tt)).
    { exact (complete_some (f r) pid (with_world st w') r k Hg). }
    assert (Hne : pending st <> []) by (intro E; rewrite E in Hin; contradiction).
    destruct (IH st1) as [st' [H1 [H1' [H2 [H3 [H4 [H5 [H6 [H7 [H8 H9]]]]]]]]]]; auto.
    + apply dict_del_keys; auto.
    + intros q Hqi. simpl. assert (q <> pid) by (intro; subst; contradiction).
      assert (Hq' : In q (map fst (pending st))) by (apply Hincl; right; auto).
      apply in_map_iff in Hq' as [[j x] [Hj Hq']]. simpl in Hj; subst.
      apply dict_in_get in Hq'; auto. rewrite <- (dict_get_del_neq pid) in Hq' by auto.
      apply dict_get_in in Hq'. apply in_map_iff. exists (q, x); auto.
    + simpl. apply dict_del_forall; auto.
    + unfold quiet in *. rewrite (results_of_app me st (cb_log st) eq_refl k (f r)) by reflexivity.
      rewrite Hq. destruct (Nat.eqb_spec k me); [congruence|reflexivity].
    + rewrite Forall_forall in *. intros p Hp r0. simpl.
      rewrite dict_get_del_neq. apply Hme2; auto.
      intro E. apply Hni. rewrite <- E. apply in_map; auto.
    + exists st'. split.
      { econstructor; eauto. intros v p. eapply process_succeeds; eauto. }
      split; [auto|]. simpl in H2. split.
      { rewrite H2. unfold st1; simpl. rewrite <- app_assoc. f_equal.
        simpl. rewrite Hg. simpl. f_equal. apply deliveries_del; auto. }
      split; auto. split; [auto|]. split; [auto|]. split; [auto|]. split.
      { intros j. rewrite H7. simpl. destruct (in_dec Z.eq_dec j (map fst l)).
        - destruct (Z.eq_dec pid j); auto. 
        - destruct (Z.eq_dec pid j).
          + subst. apply dict_get_del_eq; auto.
          + rewrite dict_get_del_neq; auto. }
      split; [|auto]. unfold st1 in H8; simpl in H8. simpl.
      pose proof (dict_del_length_some _ _ _ Hg). lia.
Qed.

(** call: the own command is sent with index [idx], answered after [foreign]. *)
Theorem call_own_response : forall os arrivals c me st st1 st2 idx r v q foreign f more,
  delivers os arrivals ->
  send_begin os c (Some me) st = (st1, Ok (idx, r)) ->
  evaluates (os_send os r) (Send VNone) false st1 st2 (CallReturns v q) ->
  pending st2 = pending st1 -> cb_log st2 = cb_log st ->
  dict_get idx (pending st1) = Some (r, Some me) ->
  arrivals (world st2) = foreign ++ (idx, f) :: more ->
  quiet me st ->
  NoDup (map fst (pending st1)) ->
  NoDup (idx :: map fst foreign) ->
  incl (map fst foreign) (map fst (pending st1)) ->
  all_have_callbacks (pending st1) ->
  Forall (fun p => forall r, dict_get (fst p) (pending st1) <> Some (r, Some me)) foreign ->
  exists st', call_evaluates (call os me c) st st' (outcome_of (f r)) /\
    cb_log st' = cb_log st ++ deliveries (pending st1) foreign ++ [(me, f r)] /\
    (forall k, dict_get k (pending st') =
       if in_dec Z.eq_dec k (idx :: map fst foreign) then None else dict_get k (pending st1)) /\
    arrivals (world st') = more /\
    packet_index st' = packet_index st2 /\ max_queue_size st' = max_queue_size st2 /\
    (length (pending st') + length foreign + 1 = length (pending st1))%nat.
Proof.
  intros os arrivals c me st st1 st2 idx r v q foreign f more Hd Hb Hs Hp2 Hl2 Hown Ha Hq Hnd Hndf Hincl Hcb Hme.
  inversion Hndf as [|? ? Hni Hndf']; subst.
  destruct (processed_quiet_all os arrivals me foreign ((idx, f) :: more) st2)
    as [st3 [H1 [H1' [H2 [H3 [H4 [H5 [H6 [H7 [H8 H9]]]]]]]]]]; auto; try (rewrite ?Hp2; auto; fail).
  { unfold quiet, results_of in *. rewrite Hl2. auto. }
  rewrite Hp2 in *.
  assert (Hg : dict_get idx (pending st3) = Some (r, Some me)).
  { rewrite H7. destruct (in_dec Z.eq_dec idx (map fst foreign)); [contradiction|auto]. }
  destruct (Hd st3 idx f more r (Some me) H3 Hg) as [w' [Hw Hev]].
  set (st4 := with_log (with_pending (with_world st3 w') (dict_del idx (pending st3))) (cb_log st3 ++ [(me, f r)])).
  assert (Hc : complete (f r) idx (with_world st3 w') = (st4, Ok tt)).
  { exact (complete_some (f r) idx (with_world st3 w') r me Hg). }
  exists st4. split.
  - unfold call_evaluates. eapply ev_call; [reflexivity| |].
    + eapply send_succeeds; eauto.
    + apply (call_loop_quiet os me st2 (foreign ++ [(idx, f)]) st4).
      * assert (HH : forall a l b, processed_quiet os me a l b -> quiet me b ->
           (forall v p, evaluates (process_pending_response os) (Send v) p b st4 (CallReturns (VData (DBool true)) true)) ->
           processed_quiet os me a (l ++ [(idx, f)]) st4).
        { induction 1; intros; simpl; econstructor; eauto. constructor. }
        apply (HH st2 foreign st3 H1); auto. intros v0 p0. eapply process_succeeds; eauto.
        intro E; rewrite E in Hg; discriminate.
      * intros. eapply (call_loop_end os me st4 (f r) []); auto.
        rewrite (results_of_app me st3 (cb_log st3) eq_refl me (f r)) by reflexivity.
        unfold quiet in H1'. rewrite H1', Nat.eqb_refl. reflexivity.
      * apply (evaluates_returns_not_exn _ _ _ _ _ _ _ _ Hs).
  - split. { unfold st4; simpl. rewrite H2, Hl2, app_assoc. reflexivity. }
    split. { intros k. unfold st4; simpl. destruct (Z.eq_dec idx k).
      - subst. apply dict_get_del_eq; auto.
      - rewrite dict_get_del_neq by auto. rewrite H7.
        destruct (in_dec Z.eq_dec k (map fst foreign)); auto. }
    split; [exact Hw|]. split; [exact H4|]. split; [exact H5|].
    unfold st4; simpl. pose proof (dict_del_length_some _ _ _ Hg). lia.
Qed.

(** Event view and generators agree. *)
Theorem event_send_gen : forall os c cb st idx r,
  send_begin os c cb st = (fst (ex_do st (EvSend r cb (Ok tt))), Ok (idx, r)) ->
  (forall i s, os_prepare_to_send os c i s = (s, Ok r)) ->
  snd (ex_do st (EvSend r cb (Ok tt))) = ObsSent idx.
Proof.
  intros os c cb st idx r H Hp. unfold send_begin in H. simpl in *. unfold next_packet_index in *.
  destruct (max_queue_size st <=? zlen (pending st)); [discriminate|].
  rewrite Hp in H. inversion H. reflexivity.
Qed.

End Facts.
