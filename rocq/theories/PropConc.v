(** Concurrent calls on one Windows executer: C75. *)
From Coq Require Import ZArith List Bool Lia Permutation.
From Verif Require Import Base Gen SpecGen SpecAsync Executer OsCommon OsWin32 SpecSg SpecDrivers SpecConc ConcFacts.
Import ListNotations.
Open Scope Z_scope.

(** Every order of completion is one in which the target runs the commands one after the
    other, and each caller gets the answer to its own command. *)
Theorem C75_async_calls_get_their_own_answers :
  forall T A (sense_of : bytes -> result unit) (tgt : target T) (s : executer spt (win_world T))
    (mcs : list (nat * scsi_command)) choose n m,
  pending s = [] -> incoming_packets (world s) = [] ->
  0 <= packet_index s < max_queue_size s -> zlen mcs <= max_queue_size s ->
  NoDup (map fst mcs) -> (forall me, In me (map fst mcs) -> ~ In me (map fst (cb_log s))) ->
  Forall win_fits (map snd mcs) -> fair_choice choose -> intelligible tgt sense_of ->
  (20 <= n)%nat -> (length mcs <= m)%nat ->
  let order := signalled m choose (seq 0 (length mcs)) in
  let run := async_wait n m choose
    (map (fun p => call (win_async_os (A := A) sense_of (honest_win tgt)) (fst p) (snd p)) mcs) s in
  Permutation order (seq 0 (length mcs)) /\
  match serve tgt (map snd mcs) order (w_dev (world s)) with
  | (t', Err e) => exists s', run = (s', Some (Err e)) /\ w_dev (world s') = t'
  | (t', Ok got) => exists s' results, run = (s', Some (Ok results)) /\
      w_dev (world s') = t' /\ pending s' = [] /\ incoming_packets (world s') = [] /\
      length results = length mcs /\
      forall i d, In (i, d) got -> nth_error results i = Some (RVal (val_of_data d))
  end.
Proof. exact (fun T A => @async_calls T A). Qed.

(** A target that counts the commands: the state goes into the data. *)
Definition ex75_target : target Z := fun t c d =>
  (t + 1, Answer 0 0 0 (nth 0 c 0 :: t :: d) []).
Definition ex75_start (max : Z) : executer spt (win_world Z) :=
  Executer [] 1 max [(9%nat, RespData None)] (WinWorld [[5]] [] 40 []).
Definition ex75_calls : list (nat * scsi_command) :=
  [(0%nat, ReadCmd [18] 8); (1%nat, WriteCmd [42] [1; 2]); (2%nat, ReadCmd [37] 1)].
Definition ex75_choice (j : nat) (l : list nat) : nat := last l 0%nat.

Example C75_example :
  let s := ex75_start 3 in
  pending s = [] /\ incoming_packets (world s) = [] /\ 0 <= packet_index s < max_queue_size s /\
  zlen ex75_calls <= max_queue_size s /\ NoDup (map fst ex75_calls) /\
  (forall me, In me (map fst ex75_calls) -> ~ In me (map fst (cb_log s))) /\
  Forall win_fits (map snd ex75_calls) /\ fair_choice ex75_choice /\
  intelligible ex75_target (fun _ => Ok tt) /\
  signalled 5 ex75_choice (seq 0 3) = [2; 1; 0]%nat /\
  serve ex75_target (map snd ex75_calls) [2; 1; 0]%nat 40 =
    (43, Ok [(2%nat, Some [37]); (1%nat, None); (0%nat, Some [18; 42])]) /\
  exists s', async_wait 20 5 ex75_choice
    (map (fun p => call (win_async_os (A := unit) (fun _ => Ok tt) (honest_win ex75_target)) (fst p) (snd p)) ex75_calls) s
    = (s', Some (Ok [RVal (VData (DBytes [18; 42])); RVal VNone; RVal (VData (DBytes [37]))])).
Proof.
  cbv zeta. split; [reflexivity|]. split; [reflexivity|]. split; [cbn; lia|]. split; [vm_compute; discriminate|].
  split; [repeat constructor; cbn; intuition discriminate|].
  split; [cbn; intros me [<-|[<-|[<-|[]]]] [H|[]]; discriminate|].
  split; [repeat constructor; vm_compute; discriminate|].
  split. { intros j l H. unfold ex75_choice. destruct (exists_last H) as [l' [a ->]].
    rewrite last_last. apply in_or_app; right; left; reflexivity. }
  split; [intros t c d; cbn; split; [reflexivity|discriminate]|].
  split; [reflexivity|]. split; [reflexivity|].
  eexists. vm_compute. reflexivity.
Qed.

(** If one of the commands fails, async_wait raises its error and the answers that had
    arrived are lost with it; requests that had not completed stay in the queue. *)
Definition ex75_bad : target Z := fun t c d =>
  (t + 1, if nth 0 c 0 =? 42 then Answer 8 0 0 [] [] else Answer 0 0 0 [7] []).
Example C75_example_failure :
  serve ex75_bad (map snd ex75_calls) [2; 1; 0]%nat 40 = (42, Err EAsiSCSI) /\
  exists s', async_wait 20 5 ex75_choice
    (map (fun p => call (win_async_os (A := unit) (fun _ => Ok tt) (honest_win ex75_bad)) (fst p) (snd p)) ex75_calls)
    (ex75_start 3) = (s', Some (Err EAsiSCSI)) /\ map fst (pending s') = [1].
Proof. split; [reflexivity|]. eexists. vm_compute. split; reflexivity. Qed.

Print Assumptions C75_async_calls_get_their_own_answers.
