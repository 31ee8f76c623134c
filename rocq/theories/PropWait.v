(** Waiting for several events on Windows: C86. *)
From Coq Require Import ZArith List Bool Lia Permutation.
From Verif Require Import Base Gen SpecGen SpecAsync AsyncFacts Executer OsCommon OsWin32 SpecSg SpecDrivers
  SpecConc Win32Wait SpecWait ConcFacts WaitFacts.
Import ListNotations.
Local Open Scope Z_scope.

(** Up to 64 commands with events of their own that complete in time: every command's
    result, in the order of the arguments, whatever the order of completion. *)
Theorem C86_within_the_limit : forall S D (gs : list (gen S D)) ss ss' rs,
  length ss = length gs -> length ss' = length gs -> length rs = length gs ->
  (length gs <= most_events)%nat ->
  Forall tokens_never_fail gs ->
  (forall i g s s' r, nth_error gs i = Some g -> nth_error ss i = Some s ->
     nth_error ss' i = Some s' -> nth_error rs i = Some r ->
     sync_wait_ends g s s' (Returned r)) ->
  exists N, forall n m ev os, (N <= n)%nat -> (N <= m)%nat ->
    own_events ev -> win32_waits os -> wakes_in_time os ->
    win_async_wait n m ev os (commands_at gs) ss = (ss', Some (Ok (results_at rs))).
Proof.
  intros S D gs ss ss' rs H1 H2 H3 Hl Ht H.
  destruct (async_wait_correct gs ss ss' rs H1 H2 H3 Ht H) as [N HN]. exists N.
  intros n m ev os Hn Hm He Ho Hw. rewrite wait_as_chosen; auto.
  - apply HN; auto. apply named_fair.
  - rewrite commands_at_length. exact Hl.
Qed.

(** The same for calls on one executer: the order in which the events are signalled is
    some order, and each caller gets the answer to its own command (compare C75). *)
Theorem C86_calls_within_the_limit :
  forall T A (sense_of : bytes -> result unit) (tgt : target T) (s : executer spt (win_world T))
    (mcs : list (nat * scsi_command)) ev os n m,
  pending s = [] -> incoming_packets (world s) = [] ->
  0 <= packet_index s < max_queue_size s -> zlen mcs <= max_queue_size s ->
  NoDup (map fst mcs) -> (forall me, In me (map fst mcs) -> ~ In me (map fst (cb_log s))) ->
  Forall win_fits (map snd mcs) -> intelligible tgt sense_of ->
  (length mcs <= most_events)%nat -> own_events ev -> win32_waits os -> wakes_in_time os ->
  (20 <= n)%nat -> (length mcs <= m)%nat ->
  let run := win_async_wait n m ev os
    (map (fun p => call (win_async_os (A := A) sense_of (honest_win tgt)) (fst p) (snd p)) mcs) s in
  exists order, Permutation order (seq 0 (length mcs)) /\
  match serve tgt (map snd mcs) order (w_dev (world s)) with
  | (t', Err e) => exists s', run = (s', Some (Err e)) /\ w_dev (world s') = t'
  | (t', Ok got) => exists s' results, run = (s', Some (Ok results)) /\
      w_dev (world s') = t' /\ pending s' = [] /\ incoming_packets (world s') = [] /\
      length results = length mcs /\
      forall i d, In (i, d) got -> nth_error results i = Some (RVal (val_of_data d))
  end.
Proof.
  intros T A sense_of tgt s mcs ev os n m H1 H2 H3 H4 H5 H6 H7 H8 Hl He Ho Hw Hn Hm run.
  exists (signalled m (named ev os) (seq 0 (length mcs))).
  unfold run. rewrite wait_as_chosen by (auto; rewrite map_length; exact Hl).
  exact (async_calls sense_of tgt s mcs (named ev os) n m H1 H2 H3 H4 H5 H6 H7 (named_fair ev os) H8 Hn Hm).
Qed.

(** More than 64 commands waiting, a null event, or a time out: the whole call raises
    an OS error, however many of the commands would have completed. *)
Theorem C86_failure_loses_all : forall S D (gs : list (gen S D)) ss ss',
  gs <> [] -> length ss = length gs -> length ss' = length gs ->
  (forall i g s s', nth_error gs i = Some g -> nth_error ss i = Some s -> nth_error ss' i = Some s' ->
     comes_to_wait g s s') ->
  exists N, forall n m ev os, (N <= n)%nat -> win32_waits os -> wait_fails ev os m (length gs) ->
    win_async_wait n (Datatypes.S m) ev os (commands_at gs) ss = (ss', Some (Err EAsiOS)).
Proof.
  intros S D gs ss ss' Hne H1 H2 H. destruct (commands_wait gs ss ss' Hne H1 H2 H) as [N HN]. exists N.
  intros n m ev os Hn Ho Hf. apply HN; auto. apply fails_signal; auto.
Qed.

(** On one executer: the requests, already handed to the system, stay in the queue. *)
Theorem C86_failure_keeps_requests :
  forall T A (sense_of : bytes -> result unit) (tgt : target T) (s : executer spt (win_world T))
    (mcs : list (nat * scsi_command)) ev os n m,
  pending s = [] -> incoming_packets (world s) = [] ->
  0 <= packet_index s < max_queue_size s -> zlen mcs <= max_queue_size s -> mcs <> [] ->
  NoDup (map fst mcs) -> (forall me, In me (map fst mcs) -> ~ In me (map fst (cb_log s))) ->
  Forall win_fits (map snd mcs) -> (20 <= n)%nat ->
  win32_waits os -> wait_fails ev os m (length mcs) ->
  exists s', win_async_wait n (Datatypes.S m) ev os
    (map (fun p => call (win_async_os (A := A) sense_of (honest_win tgt)) (fst p) (snd p)) mcs) s
    = (s', Some (Err EAsiOS)) /\
    length (pending s') = length mcs /\ max_queue_size s' = max_queue_size s /\ w_dev (world s') = w_dev (world s).
Proof.
  intros T A sense_of tgt s mcs ev os n m H1 H2 H3 H4 H5 H6 H7 H8 Hn Ho Hf.
  apply calls_wait; auto. apply fails_signal; auto.
Qed.

(** Commands sharing an event: only the last of them can ever be resumed by it. *)
Theorem C86_shared_event : forall ev os waiting k,
  signalled_command ev os waiting = Ok k -> last_waiting ev waiting k.
Proof. exact signalled_last. Qed.

Example C86_example_shared :
  signalled_command (fun k => if Nat.eqb k 2 then 7 else 9) (fun _ => 0) [0; 1; 2]%nat = Ok 1%nat /\
  signalled_command (fun k => if Nat.eqb k 2 then 7 else 9) (fun l => zlen l - 1) [0; 1; 2]%nat = Ok 2%nat.
Proof. split; reflexivity. Qed.

(** A system whose last event is always signalled first, and events numbered from 100. *)
Definition ex86_os (j : nat) (l : list Z) : Z :=
  if (Nat.ltb most_events (length l)) || existsb (Z.eqb 0) l then -1 else zlen l - 1.
Definition ex86_events (j k : nat) : Z := 100 + Z.of_nat k.

Lemma existsb_null : forall l, existsb (Z.eqb 0) l = true <-> In 0 l.
Proof.
  intros. rewrite existsb_exists. split; [intros (x & Hx & Hy); apply Z.eqb_eq in Hy; subst; exact Hx|].
  intros H. exists 0. auto.
Qed.

Example C86_example_system : own_events ex86_events /\ win32_waits ex86_os /\ wakes_in_time ex86_os.
Proof.
  split; [|split].
  - intros j k. unfold ex86_events. split; [lia|]. intros k' H. lia.
  - intros j l. unfold ex86_os. split.
    + intros (H1 & H2 & H3 & H4). left. replace (_ || _) with false.
      * destruct l; [congruence|]. unfold zlen. cbn [length]. lia.
      * symmetry. apply orb_false_intro; [apply Nat.ltb_ge; exact H2|].
        destruct (existsb (Z.eqb 0) l) eqn:E; [|reflexivity]. apply existsb_null in E. contradiction.
    + intros H. replace (_ || _) with true; [reflexivity|]. symmetry. apply orb_true_iff.
      destruct H as [H|H]; [left; apply Nat.ltb_lt; exact H|right; apply existsb_null; exact H].
  - intros j l (H1 & H2 & H3 & H4). unfold ex86_os. unfold most_events in H2. destruct (_ || _); [discriminate|]. unfold zlen, timed_out. lia.
Qed.

(** A command that waits for one transfer and returns the number it brings. *)
Definition ex86_command : gen nat nat :=
  Gen (fun _ s => (s, Yield (YTok (fun s1 => (Datatypes.S s1, Ok (VData (s1 + 7)%nat))))
    (Gen (fun i s2 => (s2, Yield (YVal (match i with Send v => v | Throw e => VExn e end)) gen_end))))).

Example C86_example_within :
  win_async_wait 10 70 ex86_events ex86_os (commands_at (repeat ex86_command 3)) [1; 2; 3]%nat =
  ([2; 3; 4]%nat, Some (Ok [RVal (VData 8%nat); RVal (VData 9%nat); RVal (VData 10%nat)])).
Proof. reflexivity. Qed.

Example C86_example_waits : comes_to_wait ex86_command 5%nat 5%nat /\
  wait_fails ex86_events ex86_os 69 65 /\
  wait_fails (fun j k => if Nat.eqb k 1 then 0 else 100 + Z.of_nat k) ex86_os 69 2 /\
  wait_fails ex86_events (fun j l => if (Nat.ltb most_events (length l)) then -1 else 258) 69 2.
Proof.
  destruct C86_example_system as (He & _ & _).
  split; [exists 1%nat; eexists; reflexivity|]. split; [left; split; [exact He|unfold most_events; lia]|].
  split; [right; left; exists 1%nat; split; [lia|reflexivity]|].
  right. right. split; [exact He|reflexivity].
Qed.

(** So the expected guarantee, that any number of commands may be waited for, fails:
    with 64 commands every result is delivered, with 65 there is only an error. *)
Theorem C86_any_number_refuted :
  win_async_wait 10 70 ex86_events ex86_os (commands_at (repeat ex86_command 64)) (repeat 1%nat 64) =
  (repeat 2%nat 64, Some (Ok (repeat (RVal (VData 8%nat)) 64))) /\
  win_async_wait 10 70 ex86_events ex86_os (commands_at (repeat ex86_command 65)) (repeat 1%nat 65) =
  (repeat 1%nat 65, Some (Err EAsiOS)).
Proof. split; vm_compute; reflexivity. Qed.

(** The executer: the second call on a queue of two fails to get an event; both requests
    are left in the queue, which is full from then on. *)
Definition ex86_target : target Z := fun t c d => (t + 1, Answer 0 0 0 (nth 0 c 0 :: t :: d) []).
Definition ex86_start : executer spt (win_world Z) := Executer [] 1 2 [] (WinWorld [] [] 40 []).
Definition ex86_calls : list (nat * scsi_command) := [(0%nat, ReadCmd [18] 8); (1%nat, WriteCmd [42] [1; 2])].
Example C86_example_queue :
  exists s', win_async_wait 20 5 (fun j k => if Nat.eqb k 1 then 0 else 100) ex86_os
    (map (fun p => call (win_async_os (A := unit) (fun _ => Ok tt) (honest_win ex86_target)) (fst p) (snd p)) ex86_calls) ex86_start
    = (s', Some (Err EAsiOS)) /\ map fst (pending s') = [1; 0] /\ w_dev (world s') = 40 /\ is_queue_full s' = true.
Proof. eexists. split; [reflexivity|]. repeat split; reflexivity. Qed.

Print Assumptions C86_within_the_limit.
Print Assumptions C86_calls_within_the_limit.
Print Assumptions C86_failure_loses_all.
Print Assumptions C86_failure_keeps_requests.
Print Assumptions C86_any_number_refuted.
Print Assumptions C86_shared_event.
