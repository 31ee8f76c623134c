(** Properties of command executers: C01-C11, C18, C65, C66. *)
From Coq Require Import ZArith List Bool Lia Permutation.
From Verif Require Import Base Gen SpecGen GenFacts Executer SpecExec ExecFacts SpecCall
  ExecGenFacts ExecStepFacts ExecExactFacts KeepFacts ExampleGens.
Import ListNotations.
Open Scope Z_scope.

(** ** C01: the number of waiting requests is bounded *)

(** For every history of sends (accepted or rejected by the OS) and responses. *)
Theorem C01_bound_every_history : forall R W max (w : W) (h : list (ex_event R)), 1 <= max ->
  let s := fst (ex_run (executer_init max w) h) in
  zlen (pending s) <= max /\ NoDup (map fst (pending s)).
Proof. exact (@history_bound). Qed.

(** For every sequence of send / call / wait run with sync_wait over every OS layer. *)
Theorem C01_bound_every_session : forall R W O C max (os : os_layer R W O C) w ops s', 1 <= max ->
  os_only_world os -> sync_session os (executer_init max w) ops s' ->
  zlen (pending s') <= max /\ NoDup (map fst (pending s')).
Proof. exact (@sync_bound). Qed.

Theorem C01_full_send_changes_nothing : forall R W O C (os : os_layer R W O C) c cb s,
  max_queue_size s <= zlen (pending s) ->
  exists e, call_evaluates (send os c cb) s s (CallRaises e).
Proof. exact (fun R W O C os c cb s H => ex_intro _ EName (full_send os c cb s H)). Qed.

(** The history view agrees with the generators: accepted or failing send, refused send,
    response. *)
Theorem C01_event_view_send : forall R W O C (os : os_layer R W O C) c cb s r w0 w o,
  zlen (pending s) < max_queue_size s ->
  os_prepare_to_send os c (packet_index s) (at_prepare s) = (with_world (at_prepare s) w0, Ok r) ->
  evaluates (os_send os r) (Send VNone) false (with_world (at_send s r cb) w0) (with_world (at_send s r cb) w) o ->
  exists s' o', call_evaluates (send os c cb) s s' o' /\
    s' = with_world (fst (ex_do s (EvSend r cb (verdict o)))) w /\
    match snd (ex_do s (EvSend r cb (verdict o))) with
    | ObsSent _ => o' = o
    | ObsSendFailed _ e => o' = CallRaises e
    | _ => False
    end.
Proof. exact (@send_event). Qed.

Theorem C01_event_view_full : forall R W O C (os : os_layer R W O C) c cb s r ov,
  max_queue_size s <= zlen (pending s) ->
  exists e, ex_do s (EvSend r cb ov) = (s, ObsRejected e) /\ call_evaluates (send os c cb) s s (CallRaises e).
Proof. exact (@full_event). Qed.

Theorem C01_event_view_response : forall R W O C (os : os_layer R W O C) st w rp pid q,
  evaluates (os_receive os) (Send VNone) false st (with_world st w) (CallReturns (VData (DPair rp pid)) q) ->
  exists s' o', call_evaluates (process_pending_response os) st s' o' /\
    s' = with_world (fst (ex_do st (EvResp rp pid))) w /\
    match snd (ex_do st (EvResp rp pid)) with
    | ObsCalled _ _ => o' = CallReturns (VData (DBool true)) true
    | ObsRespRaised e => o' = CallRaises e
    | _ => False
    end.
Proof. exact (@response_event). Qed.

Example C01_example :
  let h := [EvSend 7 (Some 1%nat) (Ok tt); EvSend 8 None (Ok tt); EvSend 9 (Some 2%nat) (Ok tt);
            EvResp (RespData None) 0] in
  snd (ex_run (executer_init 2 tt) h)
  = [ObsSent 0; ObsSent 1; ObsRejected EName; ObsCalled 1 (RespData None)] /\
  pending (fst (ex_run (executer_init 2 tt) h)) = [(1, (8, None))].
Proof. split; reflexivity. Qed.

Example C01_example_session : exists s',
  sync_session echo_os (executer_init 2 []) [OpSend [1] (Some 1%nat); OpSend [2] (Some 2%nat); OpWait] s'
  /\ cb_log s' = [(1%nat, RespData (Some [1])); (2%nat, RespData (Some [2]))] /\ pending s' = [].
Proof.
  eexists. split; [|split].
  - eapply ss_cons with (n := 20%nat); [reflexivity|].
    eapply ss_cons with (n := 20%nat); [reflexivity|].
    eapply ss_cons with (n := 40%nat); [reflexivity|]. apply ss_nil.
  - reflexivity.
  - reflexivity.
Qed.
Example C01_example_only_world : os_only_world echo_os.
Proof. exact echo_only_world. Qed.
Example C01_example_full : max_queue_size (Executer [(0, (tt, None))] 0 1 [] tt)
  <= zlen (pending (Executer [(0, (tt, None))] 0 1 [] tt)).
Proof. compute. discriminate. Qed.
Example C01_example_event_view :
  evaluates (os_send echo_os ([5], 1)) (Send VNone) false
    (at_send (Executer [(0, (([9], 0), Some 3%nat))] 1 4 [] []) ([5], 1) (Some 4%nat))
    (with_world (at_send (Executer [(0, (([9], 0), Some 3%nat))] 1 4 [] []) ([5], 1) (Some 4%nat))
       [(1, RespData (Some [5]))]) (CallReturns (VData (DInt 0)) true).
Proof. apply (echo_send (at_send (Executer [(0, (([9], 0), Some 3%nat))] 1 4 [] []) ([5], 1) (Some 4%nat)) ([5], 1)). Qed.

(** ** C02: in-order completion *)

Theorem C02_in_order_routing : forall max h, 1 <= max -> in_order h ->
  observed max h = expected max h /\ observed_waiting max h = expected_waiting max h.
Proof. exact (fun max h H Hi => timely_routing max h H (in_order_timely max h H Hi)). Qed.

Example C02_example :
  let h := [USend (Some 1%nat) (Ok tt); USend (Some 2%nat) (Ok tt); UDone 0 (RespData (Some [1]));
            USend (Some 3%nat) (Ok tt); UDone 0 (RespExn (EIO 5)); UDone 0 (RespData None)] in
  in_order h /\
  observed 2 h = [SSent; SSent; SCalled 1 (RespData (Some [1])); SSent; SCalled 2 (RespExn (EIO 5));
                  SCalled 3 (RespData None)].
Proof. split; [repeat constructor|reflexivity]. Qed.

(** ** C03: exactly which histories are routed correctly *)

Theorem C03_timely_histories_are_routed_correctly : forall max h, 1 <= max -> timely max h ->
  observed max h = expected max h /\ observed_waiting max h = expected_waiting max h.
Proof. exact timely_routing. Qed.

(** Every other history can be continued, from the point where it stops being timely, so
    that a response is lost. *)
Theorem C03_untimely_histories_lose_responses : forall max h, 1 <= max -> ~ timely max h ->
  exists h1 h2 ext, h = h1 ++ h2 /\
    In SLost (observed max (h1 ++ ext)) /\ ~ In SLost (expected max (h1 ++ ext)).
Proof. exact untimely_loses. Qed.

(** For every queue size of at least two: the callback [c] gets the response of [a]'s
    command, and [a] is never called. *)
Theorem C03_always_routed_correctly_refuted : forall max a b c rp, 2 <= max ->
  observed max (crossing_history max a b c rp) =
    SSent :: busy_obs (Z.to_nat (max - 1)) b rp ++ [SSent; SCalled c rp; SLost] /\
  expected max (crossing_history max a b c rp) =
    SSent :: busy_obs (Z.to_nat (max - 1)) b rp ++ [SSent; SCalled a rp; SCalled c rp].
Proof. exact crossing. Qed.

Example C03_example_timely : timely 2
  [USend (Some 1%nat) (Ok tt); USend (Some 2%nat) (Ok tt); UDone 1 (RespData None); UDone 0 (RespData None);
   USend (Some 3%nat) (Err (EIO 5)); USend (Some 4%nat) (Ok tt)].
Proof. unfold timely; cbn. repeat split; intros; repeat constructor; cbn; lia. Qed.
Example C03_example_untimely : ~ timely 2
  [USend (Some 1%nat) (Ok tt); USend (Some 2%nat) (Ok tt); UDone 1 (RespData None); USend (Some 3%nat) (Ok tt)].
Proof.
  unfold timely; cbn. intros [_ [_ [_ [H _]]]]. specialize (H ltac:(reflexivity)).
  inversion H; subst. cbn in *. lia.
Qed.
Example C03_example_crossing : observed 2 (crossing_history 2 1 2 3 (RespData (Some [7])))
  = [SSent; SSent; SCalled 2 (RespData (Some [7])); SSent; SCalled 3 (RespData (Some [7])); SLost].
Proof. reflexivity. Qed.

(** ** C04: single-slot executers *)

Theorem C04_single_slot_routing : forall h,
  observed 1 h = expected 1 h /\ observed_waiting 1 h = expected_waiting 1 h.
Proof. exact (fun h => timely_routing 1 h ltac:(lia) (single_slot_timely h)). Qed.

Example C04_example : observed 1
  [USend (Some 1%nat) (Err (EIO 5)); USend (Some 2%nat) (Ok tt); USend (Some 3%nat) (Ok tt); UDone 0 (RespData None)]
  = [SFailed (EIO 5); SSent; SFull; SCalled 2 (RespData None)].
Proof. reflexivity. Qed.

(** ** C05: one command at a time *)

Theorem C05_one_at_a_time_routing : forall max h, 1 <= max -> one_at_a_time max h ->
  observed max h = expected max h /\ observed_waiting max h = expected_waiting max h.
Proof. exact (fun max h H Ho => timely_routing max h H (one_at_a_time_timely max h Ho)). Qed.

Example C05_example :
  let h := [USend (Some 1%nat) (Err (EIO 5)); USend (Some 2%nat) (Ok tt); UDone 0 (RespData None);
            USend None (Ok tt); UDone 0 (RespData None)] in
  one_at_a_time 3 h /\
  observed 3 h = [SFailed (EIO 5); SSent; SCalled 2 (RespData None); SSent; SNoCallback].
Proof. split; [cbn; repeat split; auto|reflexivity]. Qed.

(** ** C06: a send rejected by the OS is rolled back *)

Theorem C06_failed_send : forall R W O C (os : os_layer R W O C) c cb s r w0 w e,
  zlen (pending s) < max_queue_size s ->
  os_prepare_to_send os c (packet_index s) (at_prepare s) = (with_world (at_prepare s) w0, Ok r) ->
  evaluates (os_send os r) (Send VNone) false (with_world (at_send s r cb) w0) (with_world (at_send s r cb) w) (CallRaises e) ->
  NoDup (map fst (pending s)) ->
  exists s', call_evaluates (send os c cb) s s' (CallRaises e) /\ cb_log s' = cb_log s /\
    (dict_get (packet_index s) (pending s) = None -> pending s' = pending s) /\
    dict_get (packet_index s) (pending s') = None /\
    (forall k, k <> packet_index s -> dict_get k (pending s') = dict_get k (pending s)).
Proof. exact (@failed_send). Qed.

(** Failing before the OS is reached (while the request is prepared). *)
Theorem C06_failed_prepare : forall R W O C (os : os_layer R W O C) c cb s w e,
  zlen (pending s) < max_queue_size s ->
  os_prepare_to_send os c (packet_index s) (at_prepare s) = (with_world (at_prepare s) w, Err e) ->
  exists s', call_evaluates (send os c cb) s s' (CallRaises e) /\ pending s' = pending s /\ cb_log s' = cb_log s.
Proof. exact (@prepare_fails). Qed.

Example C06_example : exists s',
  call_evaluates (send deaf_os [1] (Some 2%nat)) (Executer [(0, (([9], 0), Some 3%nat))] 1 4 [] []) s' (CallRaises (EIO 5))
  /\ pending s' = [(0, (([9], 0), Some 3%nat))].
Proof.
  pose (s := Executer [(0, ((([9] : bytes), 0), Some 3%nat))] 1 4 [] ([] : list (Z * resp))).
  destruct (C06_failed_send _ _ _ _ deaf_os [1] (Some 2%nat) s ([1], 1) [] [] (EIO 5))
    as [s' [H1 [_ [H2 _]]]]; try reflexivity.
  - apply deaf_send.
  - repeat constructor; auto.
  - exists s'. split; [exact H1|]. apply H2. reflexivity.
Qed.

(** ** C07: responses nobody waits for *)

Theorem C07_unknown_response : forall R W O C (os : os_layer R W O C) st w rp pid q,
  evaluates (os_receive os) (Send VNone) false st (with_world st w) (CallReturns (VData (DPair rp pid)) q) ->
  dict_get pid (pending st) = None ->
  call_evaluates (process_pending_response os) st (with_world st w) (CallRaises EAsiInternal).
Proof. exact (@unknown_response). Qed.

Example C07_example :
  call_evaluates (process_pending_response echo_os)
    (Executer [(0, (([9], 0), Some 3%nat))] 1 4 [] [(2, RespData None)])
    (Executer [(0, (([9], 0), Some 3%nat))] 1 4 [] []) (CallRaises EAsiInternal).
Proof.
  apply (C07_unknown_response _ _ _ _ echo_os (Executer [(0, (([9], 0), Some 3%nat))] 1 4 [] [(2, RespData None)])
    [] (RespData None) 2 true); [|reflexivity].
  apply echo_receive. reflexivity.
Qed.

(** ** C08: wait() *)

Theorem C08_wait_drains : forall R W O C (os : os_layer R W O C) arrivals l more st,
  delivers os arrivals ->
  arrivals (world st) = l ++ more ->
  NoDup (map fst (pending st)) ->
  Permutation (map fst l) (map fst (pending st)) ->
  all_have_callbacks (pending st) ->
  exists st' v q, call_evaluates (wait os) st st' (CallReturns v q) /\
    pending st' = [] /\
    cb_log st' = cb_log st ++ deliveries (pending st) l /\
    arrivals (world st') = more.
Proof. exact (@wait_drains). Qed.

Theorem C08_wait_on_empty_queue : forall R W O C (os : os_layer R W O C) st, pending st = [] ->
  call_evaluates (wait os) st st (CallReturns VNone true).
Proof. exact (@wait_empty). Qed.

Example C08_example : exists st' v q,
  call_evaluates (wait echo_os)
    (Executer [(0, (([9], 0), Some 3%nat)); (1, (([8], 1), Some 4%nat))] 2 4 []
       [(1, RespData (Some [8])); (0, RespExn (EIO 1)); (7, RespData None)]) st' (CallReturns v q) /\
  cb_log st' = [(4%nat, RespData (Some [8])); (3%nat, RespExn (EIO 1))] /\ pending st' = [].
Proof.
  destruct (C08_wait_drains _ _ _ _ echo_os echo_arrivals
    [(1, fun _ => RespData (Some [8])); (0, fun _ => RespExn (EIO 1))] [(7, fun _ => RespData None)]
    (Executer [(0, (([9], 0), Some 3%nat)); (1, (([8], 1), Some 4%nat))] 2 4 []
       [(1, RespData (Some [8])); (0, RespExn (EIO 1)); (7, RespData None)]))
    as [st' [v [q [H1 [H2 [H3 _]]]]]].
  - apply echo_delivers.
  - reflexivity.
  - cbn. repeat constructor; cbn; intuition lia.
  - apply perm_swap.
  - repeat constructor; cbn; eauto.
  - exists st', v, q. auto.
Qed.

(** ** C09: call() *)

Theorem C09_call_returns_own_response : forall R W O C (os : os_layer R W O C) arrivals c me s r w0 w v q foreign f more,
  delivers os arrivals ->
  zlen (pending s) < max_queue_size s ->
  dict_get (packet_index s) (pending s) = None ->
  os_prepare_to_send os c (packet_index s) (at_prepare s) = (with_world (at_prepare s) w0, Ok r) ->
  evaluates (os_send os r) (Send VNone) false (with_world (at_send s r (Some me)) w0) (with_world (at_send s r (Some me)) w) (CallReturns v q) ->
  arrivals w = foreign ++ (packet_index s, f) :: more ->
  NoDup (map fst (pending s)) ->
  NoDup (map fst foreign) -> incl (map fst foreign) (map fst (pending s)) ->
  all_have_callbacks (pending s) ->
  ~ In me (map fst (cb_log s)) ->
  Forall (fun p => snd (snd p) <> Some me) (pending s) ->
  exists s', call_evaluates (call os me c) s s' (outcome_of (f r)) /\
    cb_log s' = cb_log s ++ deliveries (pending s) foreign ++ [(me, f r)] /\
    (forall k, dict_get k (pending s') =
       if in_dec Z.eq_dec k (map fst foreign) then None else dict_get k (pending s)) /\
    arrivals (world s') = more.
Proof. exact (@call_returns_own). Qed.

Theorem C09_call_send_error : forall R W O C (os : os_layer R W O C) c me s r w0 w e,
  zlen (pending s) < max_queue_size s ->
  os_prepare_to_send os c (packet_index s) (at_prepare s) = (with_world (at_prepare s) w0, Ok r) ->
  evaluates (os_send os r) (Send VNone) false (with_world (at_send s r (Some me)) w0) (with_world (at_send s r (Some me)) w) (CallRaises e) ->
  dict_get (packet_index s) (pending s) = None ->
  exists s', call_evaluates (call os me c) s s' (CallRaises e) /\ pending s' = pending s /\ cb_log s' = cb_log s.
Proof. exact (@call_send_error). Qed.

(** Two foreign requests are answered first, one of them is not answered yet. *)
Example C09_example : exists s',
  call_evaluates (call echo_os 9 [5])
    (Executer [(0, (([9], 0), Some 3%nat)); (1, (([8], 1), Some 4%nat))] 2 4 [] [(1, RespData (Some [8]))]) s'
    (CallReturns (VData (DBytes [5])) true) /\
  cb_log s' = [(4%nat, RespData (Some [8])); (9%nat, RespData (Some [5]))].
Proof.
  pose (s := Executer [(0, ((([9] : bytes), 0), Some 3%nat)); (1, (([8], 1), Some 4%nat))] 2 4 [] [(1, RespData (Some ([8] : bytes)))]).
  destruct (C09_call_returns_own_response _ _ _ _ echo_os echo_arrivals [5] 9 s ([5], 2) (world s)
    [(1, RespData (Some [8])); (2, RespData (Some [5]))] (VData (DInt 0)) true
    [(1, fun _ => RespData (Some [8]))] (fun _ => RespData (Some [5])) [])
    as [s' [H1 [H2 _]]]; try reflexivity.
  - apply echo_delivers.
  - apply (echo_send (at_send s ([5], 2) (Some 9%nat)) ([5], 2)).
  - cbn. repeat constructor; cbn; intuition lia.
  - cbn. repeat constructor; cbn; intuition lia.
  - intros x Hx. cbn in *. intuition.
  - repeat constructor; cbn; eauto.
  - cbn. auto.
  - repeat constructor; cbn; discriminate.
  - exists s'. split; [exact H1|exact H2].
Qed.

(** ** C10: what a full queue raises *)

Theorem C10_full_queue_raises_NameError : forall R W O C (os : os_layer R W O C) c cb s,
  max_queue_size s <= zlen (pending s) ->
  call_evaluates (send os c cb) s s (CallRaises EName).
Proof. exact (@full_send). Qed.

Theorem C10_full_queue_call_raises_NameError : forall R W O C (os : os_layer R W O C) me c s,
  max_queue_size s <= zlen (pending s) ->
  call_evaluates (call os me c) s s (CallRaises EName).
Proof. exact (@full_call). Qed.

Theorem C10_full_queue_raises_queue_full_error_refuted :
  exists s : executer (bytes * Z) (list (Z * resp)), max_queue_size s <= zlen (pending s) /\
    forall s', ~ sync_wait_ends (send echo_os [1] None) s s' (Threw EAsiQueueFull).
Proof. exact full_not_queue_full. Qed.

(** ** C11: requests sent without callback *)

Theorem C11_no_callback_raises_TypeError : forall R W O C (os : os_layer R W O C) st w rp pid q r,
  evaluates (os_receive os) (Send VNone) false st (with_world st w) (CallReturns (VData (DPair rp pid)) q) ->
  dict_get pid (pending st) = Some (r, None) ->
  NoDup (map fst (pending st)) ->
  exists s', call_evaluates (process_pending_response os) st s' (CallRaises EType) /\
    cb_log s' = cb_log st /\ dict_get pid (pending s') = None /\
    (forall k, k <> pid -> dict_get k (pending s') = dict_get k (pending st)).
Proof. exact (@no_callback). Qed.

(** With a callback, for comparison. *)
Theorem C11_with_callback : forall R W O C (os : os_layer R W O C) st w rp pid q r k,
  evaluates (os_receive os) (Send VNone) false st (with_world st w) (CallReturns (VData (DPair rp pid)) q) ->
  dict_get pid (pending st) = Some (r, Some k) ->
  NoDup (map fst (pending st)) ->
  exists s', call_evaluates (process_pending_response os) st s' (CallReturns (VData (DBool true)) true) /\
    cb_log s' = cb_log st ++ [(k, rp)] /\ dict_get pid (pending s') = None /\
    (forall j, j <> pid -> dict_get j (pending s') = dict_get j (pending st)).
Proof. exact (@known_response). Qed.

Example C11_example : exists s',
  call_evaluates (process_pending_response echo_os)
    (Executer [(0, (([9], 0), None)); (1, (([8], 1), Some 4%nat))] 2 4 [] [(0, RespData None)]) s' (CallRaises EType)
  /\ pending s' = [(1, (([8], 1), Some 4%nat))].
Proof.
  eexists. split; [eapply process_err|].
  - apply echo_receive. reflexivity.
  - reflexivity.
  - reflexivity.
Qed.

(** ** C18: adapter with sync_call *)

(** execute-style use: the adapter's call() returns what the coroutine call() yields, and
    raises what it raises. *)
Theorem C18_adapter_call_returns : forall R W O C (os : os_layer R W O C) me c s s' v,
  call_evaluates (call os me c) s s' (CallReturns v true) ->
  exists n, forall m, (n <= m)%nat -> adapter_call m os me c s = Some (s', Returned (RVal v)).
Proof. exact (fun R W O C os me c s s' v H => sync_wait_value _ s s' v H). Qed.
Theorem C18_adapter_call_raises : forall R W O C (os : os_layer R W O C) me c s s' e,
  call_evaluates (call os me c) s s' (CallRaises e) ->
  exists n, forall m, (n <= m)%nat -> adapter_call m os me c s = Some (s', Threw e).
Proof. exact (fun R W O C os me c s s' e H => sync_wait_raise _ s s' e H). Qed.
Theorem C18_adapter_send_raises : forall R W O C (os : os_layer R W O C) c cb s s' e,
  call_evaluates (send os c cb) s s' (CallRaises e) ->
  exists n, forall m, (n <= m)%nat -> adapter_send m os c cb s = Some (s', Threw e).
Proof. exact (fun R W O C os c cb s s' e H => sync_wait_raise _ s s' e H). Qed.
Theorem C18_adapter_send_returns : forall R W O C (os : os_layer R W O C) c cb s s' v q,
  call_evaluates (send os c cb) s s' (CallReturns v q) ->
  exists r n, forall m, (n <= m)%nat -> adapter_send m os c cb s = Some (s', Returned r).
Proof. exact (fun R W O C os c cb s s' v q H => sync_wait_other _ s s' v q H). Qed.
Theorem C18_adapter_wait_returns : forall R W O C (os : os_layer R W O C) s s' v q,
  call_evaluates (wait os) s s' (CallReturns v q) ->
  exists r n, forall m, (n <= m)%nat -> adapter_wait m os s = Some (s', Returned r).
Proof. exact (fun R W O C os s s' v q H => sync_wait_other _ s s' v q H). Qed.
Theorem C18_adapter_wait_raises : forall R W O C (os : os_layer R W O C) s s' e,
  call_evaluates (wait os) s s' (CallRaises e) ->
  exists n, forall m, (n <= m)%nat -> adapter_wait m os s = Some (s', Threw e).
Proof. exact (fun R W O C os s s' e H => sync_wait_raise _ s s' e H). Qed.
Theorem C18_adapter_is_queue_full_raises : forall R W O n (s : executer R W),
  adapter_is_queue_full (O := O) n s = Some (s, Threw EAttribute).
Proof. exact (fun R W O n s => eq_refl). Qed.
(** sync_call calls the function it is given twice and uses the generator of the second call; the effects of a function
    that is not a generator function happen twice. *)
Theorem C18_called_twice : forall S D n (f : S -> S * result (pyobj S D)) effect r s, (forall s, f s = (effect s, Ok r)) ->
  sync_call n f s = match r with
                    | PGen g => sync_wait n g (effect (effect s))
                    | PVal _ => Some (effect (effect s), Threw EAttribute)
                    end.
Proof. intros S D n f effect r s E. unfold sync_call. rewrite !E. destruct r; reflexivity. Qed.
Theorem C18_raises_at_once : forall S D n (f : S -> S * result (pyobj S D)) s s' e, f s = (s', Err e) ->
  sync_call n f s = Some (s', Threw e).
Proof. intros S D n f s s' e E. unfold sync_call. rewrite E. reflexivity. Qed.

Example C18_example : adapter_call 30 echo_os 1 [5; 6] (executer_init 15 [])
  = Some (Executer [] 1 15 [(1%nat, RespData (Some [5; 6]))] [], Returned (RVal (VData (DBytes [5; 6])))).
Proof. reflexivity. Qed.
(** A function that counts its calls. *)
Example C18_called_twice_example :
  sync_call 5 (fun k => (S k, Ok (PVal VNone)) : nat * result (pyobj nat nat)) 0%nat = Some (2%nat, Threw EAttribute) /\
  sync_call 5 (fun k => (S k, Ok (PGen (g_val (VData 7%nat)))) : nat * result (pyobj nat nat)) 0%nat = Some (2%nat, Returned (RVal (VData 7%nat))).
Proof. split; reflexivity. Qed.

(** ** C65: the bound holds for any interleaving of concurrent operations *)

Theorem C65_bound_async : forall R W O C max (os : os_layer R W O C) w ops n m choose s' o, 1 <= max ->
  os_only_world os ->
  async_wait n m choose (map (op_gen os) ops) (executer_init max w) = (s', o) ->
  zlen (pending s') <= max /\ NoDup (map fst (pending s')).
Proof. exact (@async_bound). Qed.

Example C65_example : exists s',
  async_wait 40 5 (fun _ l => hd 0%nat l) (map (op_gen echo_os) [OpCall 1 [1]; OpCall 2 [2]]) (executer_init 1 [])
  = (s', Some (Ok [RVal (VData (DBytes [1])); RVal (VData (DBytes [2]))])) /\ pending s' = [].
Proof. eexists. split; reflexivity. Qed.

(** ** C66: an error while receiving leaves the request waiting *)

Theorem C66_receive_error_leaves_request_waiting : forall R W O C (os : os_layer R W O C) c me s r w0 w v q w' e,
  zlen (pending s) < max_queue_size s ->
  os_prepare_to_send os c (packet_index s) (at_prepare s) = (with_world (at_prepare s) w0, Ok r) ->
  evaluates (os_send os r) (Send VNone) false (with_world (at_send s r (Some me)) w0) (with_world (at_send s r (Some me)) w) (CallReturns v q) ->
  evaluates (os_receive os) (Send VNone) false (with_world (at_send s r (Some me)) w) (with_world (at_send s r (Some me)) w') (CallRaises e) ->
  ~ In me (map fst (cb_log s)) ->
  exists s', call_evaluates (call os me c) s s' (CallRaises e) /\
    dict_get (packet_index s) (pending s') = Some (r, Some me) /\ cb_log s' = cb_log s /\
    (forall k, k <> packet_index s -> dict_get k (pending s') = dict_get k (pending s)).
Proof. exact (@receive_error_leaves). Qed.

(** A single-slot executer rejects every command afterwards. *)
Theorem C66_single_slot_rejects_everything : forall R W O C (os : os_layer R W O C) c me s r w0 w v q w' e,
  pending s = [] -> max_queue_size s = 1 ->
  os_prepare_to_send os c (packet_index s) (at_prepare s) = (with_world (at_prepare s) w0, Ok r) ->
  evaluates (os_send os r) (Send VNone) false (with_world (at_send s r (Some me)) w0) (with_world (at_send s r (Some me)) w) (CallReturns v q) ->
  evaluates (os_receive os) (Send VNone) false (with_world (at_send s r (Some me)) w) (with_world (at_send s r (Some me)) w') (CallRaises e) ->
  ~ In me (map fst (cb_log s)) ->
  exists s', call_evaluates (call os me c) s s' (CallRaises e) /\
    forall c' me', call_evaluates (call os me' c') s' s' (CallRaises EName).
Proof. exact (@call_receive_error_blocks). Qed.

(** A single-slot executer is unusable afterwards. *)
Definition mute_os : os_layer (bytes * Z) (list (Z * resp)) unit bytes := {|
  os_prepare_to_send := os_prepare_to_send echo_os;
  os_send := os_send echo_os;
  os_receive := g_raise (EIO 5)
|}.
Example C66_example :
  match adapter_call 30 mute_os 1 [5] (executer_init 1 []) with
  | Some (s1, Threw e) => e = EIO 5 /\ adapter_call 30 mute_os 2 [6] s1 = Some (s1, Threw EName)
  | _ => False
  end.
Proof. cbn. split; reflexivity. Qed.

Print Assumptions C01_bound_every_history.
Print Assumptions C01_bound_every_session.
Print Assumptions C01_full_send_changes_nothing.
Print Assumptions C01_event_view_send.
Print Assumptions C01_event_view_full.
Print Assumptions C01_event_view_response.
Print Assumptions C02_in_order_routing.
Print Assumptions C03_timely_histories_are_routed_correctly.
Print Assumptions C03_untimely_histories_lose_responses.
Print Assumptions C03_always_routed_correctly_refuted.
Print Assumptions C04_single_slot_routing.
Print Assumptions C05_one_at_a_time_routing.
Print Assumptions C06_failed_send.
Print Assumptions C06_failed_prepare.
Print Assumptions C07_unknown_response.
Print Assumptions C08_wait_drains.
Print Assumptions C08_wait_on_empty_queue.
Print Assumptions C09_call_returns_own_response.
Print Assumptions C09_call_send_error.
Print Assumptions C10_full_queue_raises_NameError.
Print Assumptions C10_full_queue_call_raises_NameError.
Print Assumptions C10_full_queue_raises_queue_full_error_refuted.
Print Assumptions C11_no_callback_raises_TypeError.
Print Assumptions C11_with_callback.
Print Assumptions C18_adapter_call_returns.
Print Assumptions C18_adapter_call_raises.
Print Assumptions C18_adapter_send_raises.
Print Assumptions C18_adapter_send_returns.
Print Assumptions C18_adapter_wait_returns.
Print Assumptions C18_adapter_wait_raises.
Print Assumptions C18_adapter_is_queue_full_raises.
Print Assumptions C18_called_twice.
Print Assumptions C18_raises_at_once.
Print Assumptions C65_bound_async.
Print Assumptions C66_receive_error_leaves_request_waiting.
Print Assumptions C66_single_slot_rejects_everything.
