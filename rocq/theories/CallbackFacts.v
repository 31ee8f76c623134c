(** Proofs about callbacks that raise and callbacks that send. *)
From Coq Require Import ZArith List Bool Lia Permutation.
From Verif Require Import Base BaseFacts Gen SpecGen GenFacts Executer ExecFacts SpecCall ExecGenFacts Callbacks SpecCallback.
Import ListNotations.
Open Scope Z_scope.

Section Facts.
Context {R W O C : Type}.
Notation ex := (executer R W).
Implicit Types (os : os_layer R W O C) (act : nat -> resp -> ex -> ex * result unit) (s st : ex).

Lemma none_fine : not_exn (@VNone (dval O)).
Proof. intros e H; discriminate. Qed.
Lemma data_fine : forall d : dval O, not_exn (VData d).
Proof. intros d e H; discriminate. Qed.
Hint Resolve none_fine data_fine : core.

Lemma wait_cb_unfold : forall act os, wait_cb act os =
  Gen (fun i s => match i with
    | Throw e => (s, Raise e)
    | Send _ =>
      if is_queue_empty s then (s, Stop)
      else (s, Yield (YGen (process_pending_response_cb act os)) (wait_cb act os))
    end).
Proof. intros. rewrite (gen_eta _ _ (wait_cb act os)) at 1. reflexivity. Qed.

Lemma call_loop_cb_unfold : forall act os me, call_loop_cb act os me =
  Gen (fun i s => match i with
    | Throw e => (s, Raise e)
    | Send _ =>
      match results_of me s with
      | [] => (s, Yield (YGen (process_pending_response_cb act os)) (call_loop_cb act os me))
      | RespExn e :: _ => (s, Raise e)
      | RespData d :: _ => (s, Yield (YVal (val_of_data d)) process_end)
      end
    end).
Proof. intros. rewrite (gen_eta _ _ (call_loop_cb act os me)) at 1. reflexivity. Qed.

Lemma wait_step : forall act os st v, pending st <> [] ->
  resume (wait_cb act os) (Send v) st = (st, Yield (YGen (process_pending_response_cb act os)) (wait_cb act os)).
Proof.
  intros act os st v H. rewrite wait_cb_unfold at 1. cbn. unfold is_queue_empty, zlen. destruct (pending st); [congruence|reflexivity].
Qed.
Lemma call_step : forall act os me st v, results_of me st = [] ->
  resume (call_loop_cb act os me) (Send v) st = (st, Yield (YGen (process_pending_response_cb act os)) (call_loop_cb act os me)).
Proof. intros act os me st v H. rewrite call_loop_cb_unfold at 1. cbn. rewrite H. reflexivity. Qed.

(** One response. *)
Definition answered st w pid k rp : ex :=
  with_log (with_pending (with_world st w) (dict_del pid (pending st))) (cb_log st ++ [(k, rp)]).

Lemma one_response : forall act os arrivals st pid f rest r k,
  delivers os arrivals -> arrivals (world st) = (pid, f) :: rest -> dict_get pid (pending st) = Some (r, Some k) ->
  exists w, arrivals w = rest /\ forall v q,
    evaluates (process_pending_response_cb act os) (Send v) q st (fst (act k (f r) (answered st w pid k (f r))))
      (match snd (act k (f r) (answered st w pid k (f r))) with Ok _ => CallReturns (VData (DBool true)) true | Err e => CallRaises e end).
Proof.
  intros act os arrivals st pid f rest r k Hd Ha Hg.
  destruct (Hd st pid f rest r (Some k) Ha Hg) as [w [Hw Hev]].
  exists w. split; [exact Hw|]. intros v q.
  assert (Hc : complete_cb act (f r) pid (with_world st w) = act k (f r) (answered st w pid k (f r))).
  { unfold complete_cb. change (pending (with_world st w)) with (pending st). rewrite Hg. reflexivity. }
  destruct (act k (f r) (answered st w pid k (f r))) as [s2 [u|e]] eqn:E; cbn [fst snd].
  - eapply ev_call.
    + cbn. unfold is_queue_empty, zlen. destruct (pending st); [discriminate|]. reflexivity.
    + exact Hev.
    + eapply ev_value; [cbn; rewrite Hc; reflexivity|auto|]. apply ev_finish; auto.
  - eapply ev_call.
    + cbn. unfold is_queue_empty, zlen. destruct (pending st); [discriminate|]. reflexivity.
    + exact Hev.
    + apply ev_raise. cbn. rewrite Hc. reflexivity.
Qed.

(** ** Callbacks that raise *)
Lemma waits_all : forall act os bad arrivals l more st,
  delivers os arrivals -> only_raise act bad ->
  arrivals (world st) = l ++ more ->
  NoDup (map fst (pending st)) -> Permutation (map fst l) (map fst (pending st)) -> all_have_callbacks (pending st) ->
  exists st', pending st' = [] /\ cb_log st' = cb_log st ++ deliveries (pending st) l /\ arrivals (world st') = more /\
    forall v q, not_exn v -> exists o s1, evaluates (wait_cb act os) (Send v) q st s1 o /\
      match o with
      | CallReturns _ _ => raised_by bad (deliveries (pending st) l) = [] /\ s1 = st'
      | CallRaises e => exists es, raised_by bad (deliveries (pending st) l) = e :: es /\ waits os act s1 es st'
      end.
Proof.
  intros act os bad arrivals l more. induction l as [|[pid f] l IH]; intros st Hd Hact Ha Hnd Hp Hcb.
  - exists st. apply Permutation_nil in Hp. assert (Hn : pending st = []) by (destruct (pending st); [reflexivity|discriminate]).
    split; [exact Hn|]. split; [cbn; rewrite app_nil_r; reflexivity|]. split; [exact Ha|].
    intros v q Hv. exists (CallReturns v q), st. split; [|split; reflexivity].
    apply ev_finish; [|exact Hv]. rewrite wait_cb_unfold. cbn. unfold is_queue_empty. rewrite Hn. reflexivity.
  - cbn [app map fst] in Ha, Hp.
    assert (Hin : In pid (map fst (pending st))) by (eapply Permutation_in; [exact Hp|left; reflexivity]).
    assert (exists x, dict_get pid (pending st) = Some x) as [[r cb] Hg].
    { apply in_map_iff in Hin as [[k x] [Hk Hin]]. cbn in Hk; subst. exists x. apply dict_in_get; auto. }
    destruct (all_cb_get _ _ _ _ Hcb Hg) as [k ->].
    destruct (one_response act os arrivals st pid f (l ++ more) r k Hd Ha Hg) as [w [Hw Hev]].
    rewrite Hact in Hev. cbn [fst snd] in Hev.
    assert (Hnl : NoDup (pid :: map fst l)) by (eapply Permutation_NoDup; [apply Permutation_sym; exact Hp|exact Hnd]).
    inversion Hnl as [|? ? Hni Hnl']; subst.
    destruct (IH (answered st w pid k (f r))) as [st' [H1 [H2 [H3 H4]]]]; auto.
    + cbn. apply dict_del_keys; auto.
    + cbn. apply NoDup_Permutation; [exact Hnl'|apply dict_del_keys; auto|].
      intros x. split.
      * intros Hx. assert (x <> pid) by (intro; subst; contradiction).
        assert (Hq : In x (map fst (pending st))) by (eapply Permutation_in; [exact Hp|right; exact Hx]).
        apply in_map_iff in Hq as [[j y] [Hj Hq]]. cbn in Hj; subst.
        apply dict_in_get in Hq; auto. rewrite <- (dict_get_del_neq pid) in Hq by auto.
        apply dict_get_in in Hq. apply in_map_iff. exists (x, y); auto.
      * intros Hx. assert (x <> pid).
        { intro; subst. apply in_map_iff in Hx as [[j y] [Hj Hx]]. cbn in Hj; subst.
          apply dict_in_get in Hx; [|apply dict_del_keys; auto]. rewrite dict_get_del_eq in Hx; [discriminate|auto]. }
        assert (Hq : In x (map fst (pending st))).
        { apply in_map_iff in Hx as [[j y] [Hj Hx]]. cbn in Hj; subst.
          apply dict_in_get in Hx; [|apply dict_del_keys; auto]. rewrite dict_get_del_neq in Hx by auto.
          apply dict_get_in in Hx. apply in_map_iff. exists (x, y); auto. }
        apply Permutation_sym in Hp. apply (Permutation_in _ Hp) in Hq as [E|E]; [congruence|exact E].
    + cbn. apply dict_del_forall; auto.
    + assert (Hdel : deliveries (pending st) ((pid, f) :: l) =
        (k, f r) :: deliveries (pending (answered st w pid k (f r))) l).
      { cbn. rewrite Hg. cbn. f_equal. symmetry. apply deliveries_del; auto. }
      exists st'. split; [exact H1|]. split.
      { rewrite H2, Hdel. cbn. rewrite <- app_assoc. reflexivity. }
      split; [exact H3|]. intros v q Hv. rewrite Hdel. unfold raised_by in *. cbn [flat_map fst].
      destruct (bad k) as [e|] eqn:Eb.
      * exists (CallRaises e), (answered st w pid k (f r)). split.
        { eapply ev_call_raise; [apply wait_step; intros E; rewrite E in Hin; exact Hin|apply Hev|].
          apply ev_raise; rewrite wait_cb_unfold; reflexivity. }
        eexists. split; [reflexivity|].
        destruct (H4 VNone true none_fine) as [o [s1 [He Ho]]].
        destruct o as [v' q'|e'].
        -- destruct Ho as [Hr ->]. rewrite Hr. destruct (sync_wait_other _ _ _ _ _ He) as [r' Hs].
           eapply waits_returns. exact Hs.
        -- destruct Ho as [es [Hr Hwt]]. rewrite Hr. eapply waits_raises; [apply (sync_wait_raise _ _ _ _ He)|exact Hwt].
      * destruct (H4 (VData (DBool true)) true (data_fine _)) as [o [s1 [He Ho]]].
        exists o, s1. split; [|exact Ho].
        eapply ev_call; [apply wait_step; intros E; rewrite E in Hin; exact Hin|apply Hev|exact He].
Qed.

Theorem raising_waits : forall act os bad arrivals l more st,
  delivers os arrivals -> only_raise act bad ->
  arrivals (world st) = l ++ more ->
  NoDup (map fst (pending st)) -> Permutation (map fst l) (map fst (pending st)) -> all_have_callbacks (pending st) ->
  exists st', waits os act st (raised_by bad (deliveries (pending st) l)) st' /\
    pending st' = [] /\ cb_log st' = cb_log st ++ deliveries (pending st) l /\ arrivals (world st') = more.
Proof.
  intros act os bad arrivals l more st Hd Hact Ha Hnd Hp Hcb.
  destruct (waits_all act os bad arrivals l more st Hd Hact Ha Hnd Hp Hcb) as [st' [H1 [H2 [H3 H4]]]].
  exists st'. split; [|auto].
  destruct (H4 VNone true none_fine) as [o [s1 [He Ho]]]. destruct o as [v q|e].
  - destruct Ho as [Hr ->]. rewrite Hr. destruct (sync_wait_other _ _ _ _ _ He) as [r Hs]. eapply waits_returns. exact Hs.
  - destruct Ho as [es [Hr Hw]]. rewrite Hr. eapply waits_raises; [apply (sync_wait_raise _ _ _ _ He)|exact Hw].
Qed.

(** ** call() while callbacks of others raise *)
Lemma call_loop_raises : forall act os bad arrivals me l pid f more e st,
  delivers os arrivals -> only_raise act bad ->
  arrivals (world st) = l ++ (pid, f) :: more ->
  NoDup (map fst (pending st)) -> NoDup (map fst (l ++ [(pid, f)])) -> incl (map fst (l ++ [(pid, f)])) (map fst (pending st)) ->
  all_have_callbacks (pending st) -> results_of me st = [] ->
  raised_by bad (deliveries (pending st) l) = [] ->
  raised_by bad (deliveries (pending st) [(pid, f)]) = [e] ->
  Forall (fun p => forall r, dict_get (fst p) (pending st) <> Some (r, Some me)) (l ++ [(pid, f)]) ->
  exists st', (forall v q, not_exn v -> evaluates (call_loop_cb act os me) (Send v) q st st' (CallRaises e)) /\
    cb_log st' = cb_log st ++ deliveries (pending st) (l ++ [(pid, f)]) /\ arrivals (world st') = more /\
    (forall j, dict_get j (pending st') = if in_dec Z.eq_dec j (map fst (l ++ [(pid, f)])) then None else dict_get j (pending st)).
Proof.
  intros act os bad arrivals me l pid f more e. induction l as [|[p1 f1] l IH]; intros st Hd Hact Ha Hnd Hnl Hi Hcb Hme Hl He Hf.
  - cbn [app map fst] in *.
    assert (Hin : In pid (map fst (pending st))) by (apply Hi; left; reflexivity).
    assert (exists x, dict_get pid (pending st) = Some x) as [[r cb] Hg].
    { apply in_map_iff in Hin as [[k x] [Hk Hin]]. cbn in Hk; subst. exists x. apply dict_in_get; auto. }
    destruct (all_cb_get _ _ _ _ Hcb Hg) as [k ->].
    destruct (one_response act os arrivals st pid f more r k Hd Ha Hg) as [w [Hw Hev]].
    rewrite Hact in Hev. cbn [fst snd] in Hev.
    cbn in He. rewrite Hg in He. cbn in He.
    destruct (bad k) as [e0|]; [|discriminate]. inversion He; subst e0. clear He.
    exists (answered st w pid k (f r)). split; [|split; [|split; [exact Hw|]]].
    + intros v q Hv. eapply ev_call_raise; [apply call_step; exact Hme|apply Hev|].
      apply ev_raise; rewrite call_loop_cb_unfold; reflexivity.
    + cbn. rewrite Hg. reflexivity.
    + intros j. cbn [answered pending with_log with_pending]. destruct (in_dec Z.eq_dec j [pid]) as [[->|[]]|Hn].
      * apply dict_get_del_eq; auto.
      * apply dict_get_del_neq. intro; subst. apply Hn. left; reflexivity.
  - cbn [app map fst] in *.
    inversion Hnl as [|? ? Hni Hnl']; subst. inversion Hf as [|? ? Hf1 Hf2]; subst. cbn in Hf1.
    assert (Hin : In p1 (map fst (pending st))) by (apply Hi; left; reflexivity).
    assert (exists x, dict_get p1 (pending st) = Some x) as [[r cb] Hg].
    { apply in_map_iff in Hin as [[k x] [Hk Hin]]. cbn in Hk; subst. exists x. apply dict_in_get; auto. }
    destruct (all_cb_get _ _ _ _ Hcb Hg) as [k ->].
    assert (Hk : k <> me) by (intro; subst; eapply Hf1; eauto).
    destruct (one_response act os arrivals st p1 f1 (l ++ (pid, f) :: more) r k Hd Ha Hg) as [w [Hw Hev]].
    rewrite Hact in Hev. cbn [fst snd] in Hev.
    set (st1 := answered st w p1 k (f1 r)) in *.
    assert (Hdel : forall l', ~ In p1 (map fst l') -> deliveries (pending st1) l' = deliveries (pending st) l').
    { intros l' H. apply deliveries_del; auto. }
    assert (Hnl1 : ~ In p1 (map fst l) /\ p1 <> pid).
    { split; intros H; apply Hni; rewrite map_app, in_app_iff; [left; exact H|right; left; cbn; congruence]. }
    assert (Hl' : bad k = None /\ raised_by bad (deliveries (pending st) l) = []).
    { cbn in Hl. rewrite Hg in Hl. cbn in Hl. destruct (bad k); [discriminate|]. split; [reflexivity|exact Hl]. }
    destruct Hl' as [Hb Hl']. rewrite Hb in Hev.
    destruct (IH st1) as [st' [H1 [H2 [H3 H4]]]]; auto.
    + cbn. apply dict_del_keys; auto.
    + intros x Hx. cbn. assert (x <> p1) by (intro; subst; contradiction).
      assert (Hq : In x (map fst (pending st))) by (apply Hi; right; exact Hx).
      apply in_map_iff in Hq as [[j y] [Hj Hq]]. cbn in Hj; subst.
      apply dict_in_get in Hq; auto. rewrite <- (dict_get_del_neq p1) in Hq by auto.
      apply dict_get_in in Hq. apply in_map_iff. exists (x, y); auto.
    + cbn. apply dict_del_forall; auto.
    + rewrite (results_of_app me st (cb_log st) eq_refl k (f1 r)) by reflexivity.
      rewrite Hme. destruct (Nat.eqb_spec k me); [congruence|reflexivity].
    + rewrite Hdel; tauto.
    + rewrite Hdel; [exact He|]. cbn. intros [E|[]]. apply (proj2 Hnl1). symmetry. exact E.
    + rewrite Forall_forall in *. intros p Hp r0. cbn. rewrite dict_get_del_neq; [apply Hf2; auto|].
      intro E. apply Hni. rewrite <- E. apply in_map; auto.
    + exists st'. split; [|split; [|split; [exact H3|]]].
      * intros v q Hv. eapply ev_call; [apply call_step; exact Hme|apply Hev|apply H1; auto].
      * rewrite H2, Hdel by exact Hni. cbn. rewrite Hg. rewrite <- app_assoc. reflexivity.
      * intros j. rewrite H4. cbn [in_dec]. destruct (in_dec Z.eq_dec j (map fst (l ++ [(pid, f)]))) as [Hj|Hj];
          destruct (in_dec Z.eq_dec j (p1 :: map fst (l ++ [(pid, f)]))) as [Hj'|Hj'].
        -- reflexivity.
        -- exfalso. apply Hj'. right. exact Hj.
        -- destruct Hj' as [<-|Hj']; [|contradiction]. cbn. apply dict_get_del_eq; auto.
        -- cbn. apply dict_get_del_neq. intro; subst. apply Hj'. left; reflexivity.
Qed.

Theorem interrupted_call : forall act os bad arrivals c me s r w0 w v q l pid f more e,
  delivers os arrivals -> only_raise act bad ->
  zlen (pending s) < max_queue_size s ->
  dict_get (packet_index s) (pending s) = None ->
  os_prepare_to_send os c (packet_index s) (at_prepare s) = (with_world (at_prepare s) w0, Ok r) ->
  evaluates (os_send os r) (Send VNone) false (with_world (at_send s r (Some me)) w0) (with_world (at_send s r (Some me)) w) (CallReturns v q) ->
  arrivals w = l ++ (pid, f) :: more ->
  NoDup (map fst (pending s)) -> NoDup (map fst (l ++ [(pid, f)])) -> incl (map fst (l ++ [(pid, f)])) (map fst (pending s)) ->
  all_have_callbacks (pending s) -> ~ In me (map fst (cb_log s)) -> Forall (fun p => snd (snd p) <> Some me) (pending s) ->
  raised_by bad (deliveries (pending s) l) = [] -> raised_by bad (deliveries (pending s) [(pid, f)]) = [e] ->
  exists s', sync_wait_ends (call_cb act os me c) s s' (Threw e) /\
    cb_log s' = cb_log s ++ deliveries (pending s) (l ++ [(pid, f)]) /\ arrivals (world s') = more /\
    dict_get (packet_index s) (pending s') = Some (r, Some me) /\ ~ In me (map fst (cb_log s')).
Proof.
  intros act os bad arrivals c me s r w0 w v q l pid f more e Hd Hact Hz Hfree Hprep Hsend Ha Hnd Hnl Hi Hcb Hlog Hme Hl He.
  set (s2 := with_world (at_send s r (Some me)) w) in *.
  assert (Hpend : pending s2 = pending s ++ [(packet_index s, (r, Some me))])
    by (cbn; apply dict_get_none_set; exact Hfree).
  assert (Hnotin : ~ In (packet_index s) (map fst (l ++ [(pid, f)]))).
  { intros H. apply Hi in H. apply in_map_iff in H as [[j y] [Hj H]]. cbn in Hj; subst.
    apply dict_in_get in H; auto. congruence. }
  assert (Hsame : forall j, j <> packet_index s -> dict_get j (pending s2) = dict_get j (pending s))
    by (intros j Hj; cbn; apply dict_get_set_neq; exact Hj).
  assert (Hdel : forall l', ~ In (packet_index s) (map fst l') -> deliveries (pending s2) l' = deliveries (pending s) l').
  { intros l' H. unfold deliveries. induction l' as [|[j g] l' IH]; [reflexivity|]. cbn [flat_map fst snd].
    rewrite Hsame by (intro E; apply H; left; exact E). rewrite IH; [reflexivity|intro E; apply H; right; exact E]. }
  assert (Hn2 : ~ In (packet_index s) (map fst l) /\ ~ In (packet_index s) (map fst [(pid, f)])).
  { rewrite map_app, in_app_iff in Hnotin. tauto. }
  destruct (call_loop_raises act os bad arrivals me l pid f more e s2 Hd Hact Ha) as [s' [H1 [H2 [H3 H4]]]]; auto.
  - cbn. apply dict_set_keys. exact Hnd.
  - intros x Hx. rewrite Hpend, map_app, in_app_iff. left. apply Hi. exact Hx.
  - unfold all_have_callbacks. rewrite Hpend. apply Forall_app. split; [exact Hcb|]. constructor; [exists me; reflexivity|constructor].
  - unfold results_of. cbn. clear -Hlog. induction (cb_log s) as [|[k rp] t IH]; [reflexivity|].
    cbn in *. destruct (Nat.eqb_spec k me); [tauto|]. apply IH. tauto.
  - rewrite Hdel; tauto.
  - rewrite Hdel; tauto.
  - rewrite Forall_forall. intros [j g] Hj r0 Hg0. cbn in Hg0.
    assert (Hjn : j <> packet_index s) by (intro; subst; apply Hnotin; apply in_map_iff; exists (packet_index s, g); auto).
    rewrite dict_get_set_neq in Hg0 by exact Hjn. apply dict_get_in in Hg0.
    rewrite Forall_forall in Hme. apply (Hme _ Hg0). reflexivity.
  - exists s'. split; [|split; [|split; [exact H3|split]]].
    + apply sync_wait_raise. eapply ev_call; [cbn; reflexivity| |apply H1; exact (evaluates_returns_not_exn _ _ _ _ _ _ _ _ Hsend)].
      eapply send_succeeds; [|exact Hsend].
      unfold send_begin, next_packet_index. destruct (Z.leb_spec (max_queue_size s) (zlen (pending s))); [lia|].
      fold (at_prepare s). rewrite Hprep. reflexivity.
    + rewrite H2, Hdel by exact Hnotin. reflexivity.
    + rewrite H4. destruct (in_dec Z.eq_dec (packet_index s) (map fst (l ++ [(pid, f)]))); [contradiction|].
      cbn. apply dict_get_set_eq.
    + rewrite H2, Hdel by exact Hnotin. rewrite map_app, in_app_iff. intros [H|H]; [apply Hlog; exact H|].
      unfold deliveries in H. apply in_map_iff in H as [[k rp] [Hk H]]. cbn in Hk; subst k.
      apply in_flat_map in H as [[j g] [_ H]]. cbn in H.
      destruct (dict_get j (pending s)) as [[r0 [k0|]]|] eqn:E; [|destruct H|destruct H].
      destruct H as [H|[]]. inversion H; subst. apply dict_get_in in E. rewrite Forall_forall in Hme. apply (Hme _ E). reflexivity.
Qed.

(** ** Callbacks that send the next command *)

(** The requests that are out: callback, command, packet number, request and answer. *)
Record out_request : Type := Out { o_me : nat; o_cmd : C; o_pid : Z; o_req : R; o_answer : R -> resp }.

Fixpoint in_turn (max b : Z) (l : list out_request) : Prop :=
  match l with
  | [] => True
  | x :: l => o_pid x = b mod max /\ in_turn max (b + 1) l
  end.

Definition lined_up (arrivals : W -> list (Z * (R -> resp))) (answer : C -> resp) (st : ex) (q : list (nat * C)) : Prop :=
  exists b l, map (fun x => (o_me x, o_cmd x)) l = q /\ pending st = map (fun x => (o_pid x, (o_req x, Some (o_me x)))) l /\
    arrivals (world st) = map (fun x => (o_pid x, o_answer x)) l /\ Forall (fun x => o_answer x (o_req x) = answer (o_cmd x)) l /\
    in_turn (max_queue_size st) b l /\ packet_index st = (b + zlen l) mod max_queue_size st.

Lemma in_turn_fresh : forall max l b, 1 <= max -> in_turn max b l -> zlen l < max ->
  ~ In ((b + zlen l) mod max) (map o_pid l).
Proof.
  intros max l b Hm Hb Hl Hin.
  assert (G : forall l b n, in_turn max b l -> zlen l <= n < max -> ~ In ((b + n) mod max) (map o_pid l)).
  { clear -Hm. intros l. induction l as [|x l IH]; intros b n H Hn; [intros []|].
    destruct H as [Hx H]. unfold zlen in *. cbn [length map] in *. intros [E|E].
    - rewrite Hx in E. assert (D : ((b + n) - b) mod max = 0) by (rewrite Zminus_mod, <- E, Z.sub_diag; reflexivity).
      replace (b + n - b) with n in D by lia. rewrite Z.mod_small in D by lia. lia.
    - apply (IH (b + 1) (n - 1) H); [lia|]. replace (b + 1 + (n - 1)) with (b + n) by lia. exact E. }
  exact (G l b (zlen l) Hb ltac:(lia) Hin).
Qed.

Lemma in_turn_app : forall max l b x, in_turn max b l -> o_pid x = (b + zlen l) mod max -> in_turn max b (l ++ [x]).
Proof.
  intros max l. induction l as [|y l IH]; intros b x H Hx.
  - cbn. split; [|exact Logic.I]. rewrite Hx. unfold zlen. cbn. f_equal. lia.
  - destruct H as [Hy H]. cbn [app in_turn]. split; [exact Hy|]. apply IH; [exact H|].
    rewrite Hx. unfold zlen. cbn [length]. f_equal. lia.
Qed.

Lemma lined_send : forall os arrivals answer st q c k, accepts_and_answers os arrivals answer behind ->
  1 <= max_queue_size st -> lined_up arrivals answer st q -> zlen q < max_queue_size st ->
  exists s' r, sync_wait_ends (send os c (Some k)) st s' (Returned r) /\ lined_up arrivals answer s' (q ++ [(k, c)]) /\
    cb_log s' = cb_log st /\ max_queue_size s' = max_queue_size st.
Proof.
  intros os arrivals answer st q c k [_ Hos] Hm [b [l [Hq [Hp [Ha [Hf [Ht Hi]]]]]]] Hz.
  assert (Hlen : zlen l = zlen q) by (rewrite <- Hq; unfold zlen; rewrite map_length; reflexivity).
  destruct (Hos c (packet_index st) (at_prepare st)) as [r [w0 [Hprep [Hw0 Hsend]]]].
  set (s1 := with_world (at_send st r (Some k)) w0).
  destruct (Hsend s1 eq_refl) as [w [f [v [q' [Hev [Hw Hfr]]]]]].
  assert (Hnone : dict_get (packet_index st) (pending st) = None).
  { apply dict_get_notin. rewrite Hp, map_map. cbn. rewrite Hi. apply in_turn_fresh; [exact Hm|exact Ht|lia]. }
  assert (He : call_evaluates (send os c (Some k)) st (with_world s1 w) (CallReturns v q')).
  { eapply send_succeeds; [|exact Hev].
    unfold send_begin, next_packet_index.
    assert (Hpl : zlen (pending st) = zlen l) by (rewrite Hp; unfold zlen; rewrite map_length; reflexivity).
    destruct (Z.leb_spec (max_queue_size st) (zlen (pending st))); [lia|].
    fold (at_prepare st). rewrite Hprep. reflexivity. }
  destruct (sync_wait_other _ _ _ _ _ He) as [r0 Hs].
  exists (with_world s1 w), r0. split; [exact Hs|]. split; [|split; reflexivity].
  exists b, (l ++ [Out k c (packet_index st) r f]). rewrite !map_app. split; [rewrite Hq; reflexivity|].
  split; [cbn; rewrite (dict_get_none_set _ _ _ Hnone), Hp; reflexivity|].
  split; [cbn [with_world world]; rewrite Hw, Hw0; unfold behind; cbn [at_prepare with_index world]; rewrite Ha; reflexivity|].
  split; [apply Forall_app; split; [exact Hf|constructor; [exact Hfr|constructor]]|].
  split; [cbn; apply in_turn_app; [exact Ht|exact Hi]|].
  cbn. rewrite Hi. unfold zlen. rewrite app_length. cbn [length].
  rewrite Zplus_mod_idemp_l. f_equal. lia.
Qed.

Lemma lined_sends : forall os arrivals answer q' st q, accepts_and_answers os arrivals answer behind ->
  1 <= max_queue_size st -> lined_up arrivals answer st q -> zlen q + zlen q' <= max_queue_size st ->
  exists s', sends os st q' s' /\ lined_up arrivals answer s' (q ++ q') /\
    cb_log s' = cb_log st /\ max_queue_size s' = max_queue_size st.
Proof.
  intros os arrivals answer q'. induction q' as [|[k c] q' IH]; intros st q Hos Hm Hl Hz.
  - exists st. rewrite app_nil_r. split; [constructor|auto].
  - assert (Hz' : zlen ((k, c) :: q') = zlen q' + 1) by (unfold zlen; cbn [length]; lia).
    assert (0 <= zlen q') by (unfold zlen; lia).
    destruct (lined_send os arrivals answer st q c k Hos Hm Hl ltac:(lia)) as [s1 [r [H1 [H2 [H3 H4]]]]].
    assert (Hz1 : zlen (q ++ [(k, c)]) = zlen q + 1) by (unfold zlen; rewrite app_length; cbn [length]; lia).
    destruct (IH s1 (q ++ [(k, c)]) Hos) as [s' [H5 [H6 [H7 H8]]]]; [lia|exact H2|lia|].
    exists s'. rewrite <- app_assoc in H6. split; [econstructor; eauto|]. split; [exact H6|]. split; congruence.
Qed.

Lemma lined_wait : forall os act arrivals answer more, accepts_and_answers os arrivals answer behind -> sends_next os act more ->
  forall q calls, served answer more q calls -> forall st, 1 <= max_queue_size st -> lined_up arrivals answer st q ->
  zlen q <= max_queue_size st ->
  exists s', (forall v p, not_exn v -> exists v' p', evaluates (wait_cb act os) (Send v) p st s' (CallReturns v' p')) /\
    cb_log s' = cb_log st ++ calls /\ pending s' = [] /\ arrivals (world s') = [].
Proof.
  intros os act arrivals answer more Hos Hact q calls H. induction H as [|k c q calls H IH]; intros st Hm Hl Hz.
  - destruct Hl as [b [l [Hq [Hp [Ha _]]]]]. destruct l; [|discriminate]. cbn in Hp, Ha.
    exists st. rewrite app_nil_r. split; [|auto]. intros v p Hv. exists v, p. apply ev_finish; [|exact Hv].
    rewrite wait_cb_unfold. cbn. unfold is_queue_empty. rewrite Hp. reflexivity.
  - destruct Hl as [b [[|x l] [Hq [Hp [Ha [Hf [Ht Hi]]]]]]]; [discriminate|].
    cbn in Hq. inversion Hq as [[Hk Hc Hq']]. clear Hq. cbn [map] in Hp, Ha.
    assert (Hg : dict_get (o_pid x) (pending st) = Some (o_req x, Some (o_me x))) by (rewrite Hp; cbn; rewrite Z.eqb_refl; reflexivity).
    destruct (one_response act os arrivals st (o_pid x) (o_answer x) _ (o_req x) (o_me x) (proj1 Hos) Ha Hg) as [w [Hw Hev]].
    inversion Hf as [|? ? Hfx Hf']; subst. rewrite Hfx in Hev.
    set (st1 := answered st w (o_pid x) (o_me x) (answer (o_cmd x))) in *.
    assert (Hl1 : lined_up arrivals answer st1 (map (fun x => (o_me x, o_cmd x)) l)).
    { exists (b + 1), l. destruct Ht as [_ Ht]. split; [reflexivity|]. split; [cbn; rewrite Hp; cbn; rewrite Z.eqb_refl; reflexivity|].
      split; [exact Hw|]. split; [exact Hf'|]. split; [exact Ht|]. cbn. rewrite Hi. unfold zlen. cbn [length]. f_equal. lia. }
    assert (Hzl : zlen (map (fun x => (o_me x, o_cmd x)) l) < max_queue_size st1).
    { unfold zlen in *. cbn [length] in Hz. change (max_queue_size st1) with (max_queue_size st). lia. }
    assert (S : exists s2, act (o_me x) (answer (o_cmd x)) st1 = (s2, Ok tt) /\ cb_log s2 = cb_log st1 /\
      max_queue_size s2 = max_queue_size st1 /\
      lined_up arrivals answer s2 (map (fun x => (o_me x, o_cmd x)) l ++
        match more (o_me x) (answer (o_cmd x)) with Some (c', j) => [(j, c')] | None => [] end)).
    { specialize (Hact (o_me x) (answer (o_cmd x)) st1). destruct (more (o_me x) (answer (o_cmd x))) as [[c' j]|].
      - destruct (lined_send os arrivals answer st1 _ c' j Hos Hm Hl1 Hzl) as [s2 [r [H1 [H2 [H3 H4]]]]].
        exists s2. split; [exact (proj1 Hact _ _ H1)|]. auto.
      - exists st1. rewrite app_nil_r. auto. }
    destruct S as [s2 [Hs2 [Hlog2 [Hmax2 Hl2]]]]. rewrite Hs2 in Hev. cbn [fst snd] in Hev.
    destruct (IH s2) as [s' [H1 [H2 [H3 H4]]]]; [rewrite Hmax2; exact Hm|exact Hl2| |].
    { rewrite Hmax2. unfold zlen in *. rewrite app_length. destruct (more (o_me x) (answer (o_cmd x))) as [[c' j]|]; cbn [length]; lia. }
    exists s'. split; [|split; [|auto]].
    + intros v p Hv. destruct (H1 (VData (DBool true)) true (data_fine _)) as [v' [p' He]]. exists v', p'.
      eapply ev_call; [apply wait_step; rewrite Hp; discriminate|apply Hev|exact He].
    + rewrite H2, Hlog2. cbn. rewrite <- app_assoc. reflexivity.
Qed.

Theorem refilled : forall os act arrivals answer more st q calls, accepts_and_answers os arrivals answer behind ->
  sends_next os act more -> served answer more q calls ->
  1 <= max_queue_size st -> pending st = [] -> arrivals (world st) = [] -> 0 <= packet_index st < max_queue_size st ->
  zlen q <= max_queue_size st ->
  exists s1 s2 r, sends os st q s1 /\ sync_wait_ends (wait_cb act os) s1 s2 (Returned r) /\
    cb_log s2 = cb_log st ++ calls /\ pending s2 = [] /\ arrivals (world s2) = [].
Proof.
  intros os act arrivals answer more st q calls Hos Hact Hsv Hm Hp Ha Hi Hz.
  destruct (lined_sends os arrivals answer q st [] Hos Hm) as [s1 [H1 [H2 [H3 H4]]]].
  - exists (packet_index st), []. cbn. rewrite Z.add_0_r, Z.mod_small by lia. auto 10.
  - unfold zlen in *. cbn. lia.
  - cbn [app] in H2. destruct (lined_wait os act arrivals answer more Hos Hact q calls Hsv s1) as [s2 [H5 [H6 [H7 H8]]]];
      [rewrite H4; exact Hm|exact H2|rewrite H4; exact Hz|].
    destruct (H5 VNone true none_fine) as [v [p He]]. destruct (sync_wait_other _ _ _ _ _ He) as [r Hs].
    exists s1, s2, r. split; [exact H1|]. split; [exact Hs|]. split; [rewrite H6, H3; reflexivity|auto].
Qed.

(** ** Callbacks that do nothing *)
Definition nothing : nat -> resp -> ex -> ex * result unit := fun _ _ s => (s, Ok tt).

Inductive alike os : gen ex (dval O) -> gen ex (dval O) -> Prop :=
| al_refl : forall g, alike os g g
| al_sym : forall g g', alike os g g' -> alike os g' g
| al_received : alike os (process_received_cb nothing) process_received
| al_receive : alike os (process_receive_cb nothing os) (process_receive os)
| al_process : alike os (process_pending_response_cb nothing os) (process_pending_response os)
| al_wait : alike os (wait_cb nothing os) (wait os)
| al_loop : forall me, alike os (call_loop_cb nothing os me) (call_loop os me)
| al_call : forall me c, alike os (call_cb nothing os me c) (call os me c).

Definition alike_step os (a b : event ex (dval O) (gen ex (dval O))) : Prop :=
  match a, b with
  | Stop, Stop => True
  | Raise e, Raise e' => e = e'
  | Yield (YGen c) k, Yield (YGen c') k' => alike os c c' /\ alike os k k'
  | Yield y k, Yield y' k' => y = y' /\ alike os k k'
  | _, _ => False
  end.

Lemma alike_step_refl : forall os a, alike_step os a a.
Proof. intros os [| |[]]; cbn; repeat split; constructor. Qed.
Lemma alike_step_sym : forall os a b, alike_step os a b -> alike_step os b a.
Proof. intros os [|e|[] k] [|e'|[] k']; cbn; intuition (try discriminate; auto using al_sym). Qed.

Lemma alike_resume : forall os g g', alike os g g' -> forall i s,
  exists s1 a b, resume g i s = (s1, a) /\ resume g' i s = (s1, b) /\ alike_step os a b.
Proof.
  intros os g g' H. induction H; intros i s.
  - destruct (resume g i s) as [s1 a]. exists s1, a, a. auto using alike_step_refl.
  - destruct (IHalike i s) as [s1 [a [b [H1 [H2 H3]]]]]. exists s1, b, a. auto using alike_step_sym.
  - assert (E : resume (process_received_cb (O := O) nothing) i s = resume process_received i s).
    { destruct i as [v|e]; [|reflexivity]. destruct v as [|e|[]]; try reflexivity. }
    rewrite E. destruct (resume process_received i s) as [s1 a]. exists s1, a, a. auto using alike_step_refl.
  - destruct i as [v|e]; cbn; eexists _, _, _; (split; [reflexivity|split; [reflexivity|]]); cbn; repeat constructor.
  - destruct i as [v|e]; cbn; [destruct (is_queue_empty s)|]; eexists _, _, _; (split; [reflexivity|split; [reflexivity|]]); cbn; repeat constructor.
  - rewrite wait_cb_unfold, wait_unfold. destruct i as [v|e]; cbn; [destruct (is_queue_empty s)|]; eexists _, _, _;
      (split; [reflexivity|split; [reflexivity|]]); cbn; repeat constructor.
  - rewrite call_loop_cb_unfold, call_loop_unfold. destruct i as [v|e]; cbn; [destruct (results_of me s) as [|[d|e] rest]|];
      eexists _, _, _; (split; [reflexivity|split; [reflexivity|]]); cbn; repeat constructor.
  - destruct i as [v|e]; cbn; eexists _, _, _; (split; [reflexivity|split; [reflexivity|]]); cbn; repeat constructor.
Qed.

Lemma alike_evaluates : forall os g i p s s' o, evaluates g i p s s' o -> forall g', alike os g g' -> evaluates g' i p s s' o.
Proof.
  intros os g i p s s' o H. induction H as [g v p s s1 H1 H2|g i p s s1 e H1|g i p s s1 s2 v k o H1 H2 H3 IH3|
    g i p s s1 s2 s3 c k v q o H1 H2 IH2 H3 IH3|g i p s s1 s2 s3 c k e o H1 H2 IH2 H3 IH3|g i p s s1 s2 s3 t k v o H1 H2 H3 H4 IH4];
    intros g' A.
  - destruct (alike_resume os g g' A (Send v) s) as [t1 [a [b [E1 [E2 E3]]]]]. rewrite H1 in E1. inversion E1; subst.
    destruct b; try contradiction. apply ev_finish; auto.
  - destruct (alike_resume os g g' A i s) as [t1 [a [b [E1 [E2 E3]]]]]. rewrite H1 in E1. inversion E1; subst.
    destruct b; try contradiction. cbn in E3. subst. apply ev_raise; auto.
  - destruct (alike_resume os g g' A i s) as [t1 [a [b [E1 [E2 E3]]]]]. rewrite H1 in E1. inversion E1; subst.
    destruct b as [| |y k']; try contradiction. cbn in E3. destruct E3 as [<- E3]. eapply ev_value; eauto.
  - destruct (alike_resume os g g' A i s) as [t1 [a [b [E1 [E2 E3]]]]]. rewrite H1 in E1. inversion E1; subst.
    destruct b as [| |[| |] k']; try contradiction; cbn in E3; destruct E3 as [E4 E3]; try discriminate. eapply ev_call; eauto.
  - destruct (alike_resume os g g' A i s) as [t1 [a [b [E1 [E2 E3]]]]]. rewrite H1 in E1. inversion E1; subst.
    destruct b as [| |[| |] k']; try contradiction; cbn in E3; destruct E3 as [E4 E3]; try discriminate. eapply ev_call_raise; eauto.
  - destruct (alike_resume os g g' A i s) as [t1 [a [b [E1 [E2 E3]]]]]. rewrite H1 in E1. inversion E1; subst.
    destruct b as [| |y k']; try contradiction. cbn in E3. destruct E3 as [<- E3]. eapply ev_token; eauto.
Qed.

Theorem quiet_wait : forall os s s' o,
  call_evaluates (wait_cb (fun _ _ s => (s, Ok tt)) os) s s' o <-> call_evaluates (wait os) s s' o.
Proof.
  intros os s s' o. split; intros H; eapply (alike_evaluates os); try exact H; [apply al_wait|apply al_sym, al_wait].
Qed.
Theorem quiet_call : forall os me c s s' o,
  call_evaluates (call_cb (fun _ _ s => (s, Ok tt)) os me c) s s' o <-> call_evaluates (call os me c) s s' o.
Proof.
  intros os me c s s' o. split; intros H; eapply (alike_evaluates os); try exact H; [apply al_call|apply al_sym, al_call].
Qed.

End Facts.
