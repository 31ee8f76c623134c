(** C123: callbacks that raise, and callbacks that send the next command. *)
From Coq Require Import ZArith List Bool Lia Permutation.
From Verif Require Import Base Gen SpecGen GenFacts Executer SpecCall ExecGenFacts ExampleGens Callbacks SpecCallback CallbackFacts.
Import ListNotations.
Local Open Scope Z_scope.

(** wait() raises the exception of a callback, and when it is called again each time it goes on where it stopped: the
    exceptions of all callbacks that raise come out one by one in the order of the answers, and every callback has run exactly
    once with its own answer. *)
Theorem C123_raising : forall R W O C act (os : os_layer R W O C) bad arrivals l more st,
  delivers os arrivals -> only_raise act bad ->
  arrivals (world st) = l ++ more ->
  NoDup (map fst (pending st)) -> Permutation (map fst l) (map fst (pending st)) -> all_have_callbacks (pending st) ->
  exists st', waits os act st (raised_by bad (deliveries (pending st) l)) st' /\
    pending st' = [] /\ cb_log st' = cb_log st ++ deliveries (pending st) l /\ arrivals (world st') = more.
Proof. exact (fun R W O C => @raising_waits R W O C). Qed.

(** call() raises the exception of the callback of another command, if that is answered first; its own command has been sent
    and stays out, and its answer has not reached anybody. *)
Theorem C123_call : forall R W O C act (os : os_layer R W O C) bad arrivals c me s r w0 w v q l pid f more e,
  delivers os arrivals -> only_raise act bad ->
  zlen (pending s) < max_queue_size s ->
  dict_get (packet_index s) (pending s) = None ->
  os_prepare_to_send os c (packet_index s) (at_prepare s) = (with_world (at_prepare s) w0, Ok r) ->
  evaluates (os_send os r) (Send VNone) false (with_world (at_send s r (Some me)) w0) (with_world (at_send s r (Some me)) w) (CallReturns v q) ->
  arrivals w = l ++ (pid, f) :: more ->
  NoDup (map fst (pending s)) -> NoDup (map fst (l ++ [(pid, f)])) -> incl (map fst (l ++ [(pid, f)])) (map fst (pending s)) ->
  all_have_callbacks (pending s) -> ~ In me (map fst (cb_log s)) -> Forall (fun p => snd (snd p) <> Some me) (pending s) ->
  raised_by bad (deliveries (pending s) l) = [] -> raised_by bad (deliveries (pending s) [(pid, f)]) = [e] ->
  exists s', sync_wait_ends (call_cb act os me c) s s' (Threw e) /\
    cb_log s' = cb_log s ++ deliveries (pending s) (l ++ [(pid, f)]) /\ arrivals (world s') = more /\
    dict_get (packet_index s) (pending s') = Some (r, Some me) /\ ~ In me (map fst (cb_log s')).
Proof. exact (fun R W O C => @interrupted_call R W O C). Qed.

(** Callbacks that send the next command, on a system that answers in the order of the commands: a queue that was filled up to
    its size is kept filled, wait() returns when there is nothing more to send, and every callback has run exactly once, in the
    order of the commands, with the answer to its own command. *)
Theorem C123_refilled : forall R W O C (os : os_layer R W O C) act arrivals answer more st q calls,
  accepts_and_answers os arrivals answer behind -> sends_next os act more -> served answer more q calls ->
  1 <= max_queue_size st -> pending st = [] -> arrivals (world st) = [] -> 0 <= packet_index st < max_queue_size st ->
  zlen q <= max_queue_size st ->
  exists s1 s2 r, sends os st q s1 /\ sync_wait_ends (wait_cb act os) s1 s2 (Returned r) /\
    cb_log s2 = cb_log st ++ calls /\ pending s2 = [] /\ arrivals (world s2) = [].
Proof. exact (fun R W O C => @refilled R W O C). Qed.

(** Callbacks that do nothing else: wait() and call() are those of the other properties. *)
Theorem C123_quiet : forall R W O C (os : os_layer R W O C) s s' o,
  call_evaluates (wait_cb (fun _ _ s => (s, Ok tt)) os) s s' o <-> call_evaluates (wait os) s s' o.
Proof. exact (fun R W O C => @quiet_wait R W O C). Qed.
Theorem C123_quiet_call : forall R W O C (os : os_layer R W O C) me c s s' o,
  call_evaluates (call_cb (fun _ _ s => (s, Ok tt)) os me c) s s' o <-> call_evaluates (call os me c) s s' o.
Proof. exact (fun R W O C => @quiet_call R W O C). Qed.

(** ** Cases *)

(** Of three callbacks two raise. *)
Example C123_raising_example :
  let bad := fun k => match k with 4%nat => Some (EIO 1) | 5%nat => Some EType | _ => None end in
  exists s', waits echo_os (fun k rp s => (s, match bad k with Some e => Err e | None => Ok tt end))
      (Executer [(0, (([9], 0), Some 3%nat)); (1, (([8], 1), Some 4%nat)); (2, (([7], 2), Some 5%nat))] 3 4 []
         [(1, RespData (Some [8])); (0, RespExn (EIO 2)); (2, RespData None)]) [EIO 1; EType] s' /\
    pending s' = [] /\
    cb_log s' = [(4%nat, RespData (Some [8])); (3%nat, RespExn (EIO 2)); (5%nat, RespData None)].
Proof.
  intros bad.
  destruct (C123_raising _ _ _ _ (fun k rp s => (s, match bad k with Some e => Err e | None => Ok tt end)) echo_os bad echo_arrivals
    [(1, fun _ => RespData (Some [8])); (0, fun _ => RespExn (EIO 2)); (2, fun _ => RespData None)] []
    (Executer [(0, (([9], 0), Some 3%nat)); (1, (([8], 1), Some 4%nat)); (2, (([7], 2), Some 5%nat))] 3 4 []
       [(1, RespData (Some [8])); (0, RespExn (EIO 2)); (2, RespData None)])) as [s' [H1 [H2 [H3 _]]]].
  - exact echo_delivers.
  - intros k rp s. reflexivity.
  - reflexivity.
  - repeat constructor; cbn; intuition discriminate.
  - cbn. apply perm_swap.
  - repeat constructor; eexists; reflexivity.
  - exists s'. auto.
Qed.

(** A call that is interrupted: the command is out, the callback of another one has raised. *)
Example C123_call_example : exists s',
  sync_wait_ends (call_cb (fun k rp s => (s, match k with 4%nat => Err EType | _ => Ok tt end)) echo_os 9 [5])
    (Executer [(0, (([9], 0), Some 3%nat)); (1, (([8], 1), Some 4%nat))] 2 4 [] [(0, RespData None); (1, RespData (Some [8]))]) s' (Threw EType) /\
  cb_log s' = [(3%nat, RespData None); (4%nat, RespData (Some [8]))] /\ dict_get 2 (pending s') = Some (([5], 2), Some 9%nat).
Proof.
  pose (s := Executer [(0, ((([9] : bytes), 0), Some 3%nat)); (1, (([8], 1), Some 4%nat))] 2 4 []
    [(0, RespData None); (1, RespData (Some [8]))]).
  destruct (C123_call _ _ _ _ (fun k rp s => (s, match k with 4%nat => Err EType | _ => Ok tt end)) echo_os
    (fun k => match k with 4%nat => Some EType | _ => None end) echo_arrivals [5] 9%nat s ([5], 2) (world s)
    (world s ++ [(2, RespData (Some [5]))]) (VData (DInt 0)) true
    [(0, fun _ => RespData None)] 1 (fun _ => RespData (Some [8])) [(2, fun _ => RespData (Some [5]))] EType)
    as [s' [H1 [H2 [_ [H3 _]]]]]; try reflexivity.
  - exact echo_delivers.
  - intros k rp t. destruct k as [|[|[|[|[|k]]]]]; reflexivity.
  - apply (echo_send (with_world (at_send s ([5], 2) (Some 9%nat)) (world s)) ([5], 2)).
  - repeat constructor; cbn; intuition discriminate.
  - repeat constructor; cbn; intuition discriminate.
  - intros x Hx. exact Hx.
  - repeat constructor; eexists; reflexivity.
  - intros [].
  - repeat constructor; discriminate.
  - exists s'. auto.
Qed.

(** Three commands in a queue of three; the callbacks of the first and the second one send a fourth and a fifth, and the
    fourth one's a sixth. *)
Definition next_ones (k : nat) (rp : resp) : option (bytes * nat) :=
  match k with
  | 1%nat => Some ([40], 4%nat)
  | 2%nat => Some ([50], 5%nat)
  | 4%nat => Some ([60], 6%nat)
  | _ => None
  end.
(** The callback as a function, with enough steps for the send. *)
Definition chain (os : os_layer (bytes * Z) (list (Z * resp)) unit bytes) (more : nat -> resp -> option (bytes * nat))
    (k : nat) (rp : resp) (s : executer (bytes * Z) (list (Z * resp))) : executer (bytes * Z) (list (Z * resp)) * result unit :=
  match more k rp with
  | None => (s, Ok tt)
  | Some (c, j) =>
    match sync_wait 30 (send os c (Some j)) s with
    | Some (s', Threw e) => (s', Err e)
    | Some (s', _) => (s', Ok tt)
    | None => (s, Ok tt)
    end
  end.
Definition the_answer (c : bytes) : resp := RespData (Some c).

Lemma echo_answers : accepts_and_answers echo_os echo_arrivals the_answer behind.
Proof.
  split; [exact echo_delivers|]. intros c idx s. exists (c, idx), (world s).
  split; [destruct s; reflexivity|]. split; [reflexivity|]. intros s1 E.
  exists (world s1 ++ [(idx, RespData (Some c))]), (fun _ => RespData (Some c)), (VData (DInt 0)), true.
  split; [apply (echo_send s1 (c, idx))|]. split; [|reflexivity].
  unfold echo_arrivals, behind. rewrite map_app, E. reflexivity.
Qed.

(** A system that answers the latest command first (models no code). *)
Definition latest_os : os_layer (bytes * Z) (list (Z * resp)) unit bytes := {|
  os_prepare_to_send := os_prepare_to_send echo_os;
  os_send := fun r => Gen (fun i s => match i with
    | Throw e => (s, Raise e)
    | Send _ => (with_world s ((snd r, RespData (Some (fst r))) :: world s), Yield (YVal (VData (DInt 0))) g_end) end);
  os_receive := os_receive echo_os
|}.
Lemma latest_answers : accepts_and_answers latest_os echo_arrivals the_answer in_front.
Proof.
  split; [exact echo_delivers|]. intros c idx s. exists (c, idx), (world s).
  split; [destruct s; reflexivity|]. split; [reflexivity|]. intros s1 E.
  exists ((idx, RespData (Some c)) :: world s1), (fun _ => RespData (Some c)), (VData (DInt 0)), true.
  split; [|split; [|reflexivity]].
  - eapply ev_value; [reflexivity|intros e H; discriminate|]. apply ev_finish; [reflexivity|intros e H; discriminate].
  - unfold in_front. cbn. rewrite E. reflexivity.
Qed.

(** Both systems send within 30 steps. *)
Lemma chain_sends : forall os more, os = echo_os \/ os = latest_os -> sends_next os (chain os more) more.
Proof.
  intros os more Hos k rp s. unfold chain. destruct (more k rp) as [[c j]|]; [|reflexivity].
  assert (D : exists s' o, sync_wait 30 (send os c (Some j)) s = Some (s', o)).
  { destruct s as [p i m l w]. destruct Hos; subst os; lazy -[Z.leb zlen Z.modulo Z.add app dict_set]; 
      match goal with |- context [if ?b then _ else _] => destruct b end; eexists _, _; reflexivity. }
  destruct D as [s1 [o D]]. pose proof (sync_wait_some_ends _ _ _ _ _ D) as E. rewrite D.
  split; intros s' x H; destruct (sync_wait_det _ _ _ _ _ _ E H) as [-> ->]; reflexivity.
Qed.

Example C123_refilled_example : exists s1 s2 r,
  sends echo_os (executer_init 3 []) [(1%nat, [10]); (2%nat, [20]); (3%nat, [30])] s1 /\
  sync_wait_ends (wait_cb (chain echo_os next_ones) echo_os) s1 s2 (Returned r) /\ pending s2 = [] /\
  cb_log s2 = map (fun p => (fst p, RespData (Some [snd p]))) [(1%nat, 10); (2%nat, 20); (3%nat, 30); (4%nat, 40); (5%nat, 50); (6%nat, 60)].
Proof.
  destruct (C123_refilled _ _ _ _ echo_os (chain echo_os next_ones) echo_arrivals the_answer next_ones (executer_init 3 [])
    [(1%nat, [10]); (2%nat, [20]); (3%nat, [30])]
    (map (fun p => (fst p, RespData (Some [snd p]))) [(1%nat, 10); (2%nat, 20); (3%nat, 30); (4%nat, 40); (5%nat, 50); (6%nat, 60)]))
    as [s1 [s2 [r [H1 [H2 [H3 [H4 _]]]]]]]; try reflexivity; try (cbn; lia).
  - exact echo_answers.
  - apply chain_sends. left. reflexivity.
  - repeat (apply (served_next the_answer next_ones); cbn). constructor.
  - exists s1, s2, r. auto.
Qed.

(** It needs answers in the order of the commands: with a queue of two, when the second is answered first, its callback sends a
    third, which takes the packet number of the first.  wait() returns, nothing is pending, and the first callback has not
    been called; its answer is still there. *)
Theorem C123_refilled_refuted : exists (os : os_layer (bytes * Z) (list (Z * resp)) unit bytes) act arrivals more s1 s2 r,
  accepts_and_answers os arrivals the_answer in_front /\ sends_next os act more /\
  sends os (executer_init 2 []) [(1%nat, [10]); (2%nat, [20])] s1 /\
  sync_wait_ends (wait_cb act os) s1 s2 (Returned r) /\ pending s2 = [] /\
  cb_log s2 = [(2%nat, RespData (Some [20])); (3%nat, RespData (Some [30]))] /\ length (arrivals (world s2)) = 1%nat.
Proof.
  pose (more := fun (k : nat) (rp : resp) => match k with 2%nat => Some ([30], 3%nat) | _ => None end).
  exists latest_os, (chain latest_os more), echo_arrivals, more.
  pose (s0 := executer_init 2 [] : executer (bytes * Z) (list (Z * resp))).
  destruct (sync_wait 30 (send latest_os [10] (Some 1%nat)) s0) as [[sa [ra|ea]]|] eqn:Ea; try (vm_compute in Ea; discriminate).
  pose proof Ea as Fa. vm_compute in Fa. inversion Fa; subst sa ra. clear Fa. apply sync_wait_some_ends in Ea.
  match type of Ea with sync_wait_ends _ _ ?sa _ =>
    destruct (sync_wait 30 (send latest_os [20] (Some 2%nat)) sa) as [[sb [rb|eb]]|] eqn:Eb; try (vm_compute in Eb; discriminate) end.
  pose proof Eb as Fb. vm_compute in Fb. inversion Fb; subst sb rb. clear Fb. apply sync_wait_some_ends in Eb.
  match type of Eb with sync_wait_ends _ _ ?sb _ =>
    destruct (sync_wait 60 (wait_cb (chain latest_os more) latest_os) sb) as [[sc [rc|ec]]|] eqn:Ec; try (vm_compute in Ec; discriminate) end.
  pose proof Ec as Fc. vm_compute in Fc. inversion Fc; subst sc rc. clear Fc. apply sync_wait_some_ends in Ec.
  eexists _, _, _. split; [exact latest_answers|]. split; [apply chain_sends; right; reflexivity|].
  split; [eapply sends_one; [exact Ea|eapply sends_one; [exact Eb|apply sends_none]]|].
  split; [exact Ec|]. repeat split.
Qed.

(** All theorems at once: closed under the global context. *)
Definition all_theorems := (C123_raising, C123_call, C123_refilled, C123_quiet, C123_quiet_call, C123_refilled_refuted).
Print Assumptions all_theorems.
