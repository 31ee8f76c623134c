(** C85: several commands in flight on Linux. *)
From Coq Require Import ZArith List Bool Lia Permutation.
From Verif Require Import Base BaseFacts Gen SpecGen GenFacts Executer OsCommon OsLinux SpecSg SpecSession SpecExecute ExampleLinux
  SpecQueue QueueFacts.
Import ListNotations.
Local Open Scope Z_scope.

(** Any program of send(), call() and wait() on an idle executer, while the device and the driver
    execute the requests and hand over the answers in any order: the program and its callbacks see
    what they should, and the executer forgets nothing. *)
Theorem C85_programs : forall T A sense_of (tgt : target T) timeout s script t ops n' q' log l, queue_idle s script t ->
  queue_program tgt (linux_answer sense_of) (max_queue_size s) 0 (Queue script t [] []) ops n' q' log l ->
  NoDup (callbacks ops) -> (forall me, In me (callbacks ops) -> ~ In me (map fst (cb_log s))) ->
  exists s', program_runs (linux_os (A := A) sense_of (patient tgt) timeout) s ops s' l /\ cb_log s' = cb_log s ++ log /\
    zlen (pending s') = zlen (outstanding q') /\
    (outstanding q' = [] -> queue_idle s' (q_script q') (q_target q')).
Proof. exact @queue_programs. Qed.

(** In particular: as many commands as the queue has room for, sent one after the other and waited for. *)
Theorem C85_batch : forall T A sense_of (tgt : target T) timeout s script t cmds all q1, queue_idle s script t ->
  Forall fits (map snd cmds) -> zlen cmds <= max_queue_size s ->
  handed_over tgt (linux_answer sense_of) (Queue script t (numbered 0 cmds) []) all q1 -> outstanding q1 = [] ->
  NoDup (map fst cmds) -> (forall me, In me (map fst cmds) -> ~ In me (map fst (cb_log s))) ->
  exists s', program_runs (linux_os (A := A) sense_of (patient tgt) timeout) s (batch cmds) s' (map (fun _ => Went) (batch cmds)) /\
    cb_log s' = cb_log s ++ map report all /\ queue_idle s' (q_script q1) (q_target q1).
Proof. exact @queue_batch. Qed.

(** Every callback of a command that was sent is in the log exactly once or still outstanding. *)
Theorem C85_exactly_once : forall T sense_of (tgt : target T) max script t ops n' q' log l,
  queue_program tgt (linux_answer sense_of) max 0 (Queue script t [] []) ops n' q' log l ->
  Permutation (sent ops l) (map fst log ++ map l_me (outstanding q')).
Proof.
  intros T sense_of tgt max script t ops n' q' log l H.
  exact (exactly_once sense_of tgt max 0 (Queue script t [] []) ops n' q' log l H).
Qed.

(** Three commands in a queue of three, executed in the order third, first, second and handed over
    second, third, first; a fourth does not fit, a call comes in between. *)
Definition counting : target Z := fun t cdb data =>
  (t + 1, Answer (if t =? 2 then 2 else 0) 0 0 [t; byte_at 0 cdb] [112; 0; 5]).
Definition crossed : list device_event := [Run 2; Run 0; HandOver 9; Run 0; HandOver 2; HandOver 0; HandOver 0; Run 0; HandOver 0].
Example C85_program_example :
  queue_program counting (linux_answer any_sense) 3 0 (Queue crossed 0 [] [])
    [Submit 1 (ReadCmd [18; 0; 0; 0; 2; 0] 2); Submit 2 (ReadCmd [37] 2); Submit 3 (ReadCmd [8] 2);
     Submit 4 (ReadCmd [9] 2); WaitAll; Call 5 (ReadCmd [40] 2)]
    4 (Queue [] 4 [] [])
    [(2%nat, RespExn (EAsiCheckCondition (pad 255 [112; 0; 5]))); (3%nat, RespData (Some [0; 8])); (1%nat, RespData (Some [1; 18]));
     (5%nat, RespData (Some [3; 40]))]
    [Went; Went; Went; Failed EName; Went; Answered (RespData (Some [3; 40]))].
Proof.
  assert (F : forall cdb, zlen cdb < 256 -> fits (ReadCmd cdb 2)) by (intros cdb H; split; [exact H|cbn; lia]).
  apply qp_submit; [apply F; reflexivity|reflexivity|repeat constructor|].
  apply qp_submit; [apply F; reflexivity|reflexivity|repeat constructor|].
  apply qp_submit; [apply F; reflexivity|reflexivity|repeat constructor|].
  apply qp_submit_full; [cbn; lia|].
  eapply (qp_wait _ _ 3 3 _ [(Label 1 2 (ReadCmd [37] 2), Answer 2 0 0 [2; 37] [112; 0; 5]);
     (Label 2 3 (ReadCmd [8] 2), Answer 0 0 0 [0; 8] [112; 0; 5]);
     (Label 0 1 (ReadCmd [18; 0; 0; 0; 2; 0] 2), Answer 0 0 0 [1; 18] [112; 0; 5])]).
  - eapply ho_next; [reflexivity|discriminate || (intros _; reflexivity)|].
    eapply ho_next; [reflexivity|intros H; discriminate H|].
    eapply ho_next; [reflexivity|intros H; discriminate H|constructor].
  - reflexivity.
  - apply (qp_call _ _ 3 3 _ 5 (ReadCmd [40] 2) (Answer 0 0 0 [3; 40] [112; 0; 5]) [] (Queue [] 4 [] []) [] 4 (Queue [] 4 [] []) [] []);
      [apply F; reflexivity|reflexivity|constructor| |constructor].
    eapply ho_next; [reflexivity|intros H; discriminate H|constructor].
Qed.
Example C85_idle_example : queue_idle (executer_init 3 (LinuxWorld [] (Queue crossed 0 [] []) None)) crossed 0.
Proof. repeat split; cbn; lia. Qed.
Example C85_batch_example :
  exists all q1, handed_over counting (linux_answer any_sense)
    (Queue crossed 0 (numbered 0 [(1%nat, ReadCmd [18] 2); (2%nat, ReadCmd [37] 2); (3%nat, ReadCmd [8] 2)]) []) all q1 /\
    outstanding q1 = [] /\ map (fun p => l_me (fst p)) all = [2; 3; 1]%nat.
Proof.
  eexists _, _. split; [|split].
  - eapply ho_next; [reflexivity|intros _; reflexivity|].
    eapply ho_next; [reflexivity|intros H; discriminate H|].
    eapply ho_next; [reflexivity|intros H; discriminate H|constructor].
  - reflexivity.
  - reflexivity.
Qed.

(** Out of time: a queue of two, the first command slow, the second (a call) answered, a third sent.
    The third takes the slot of the first; the answer to the first is reported as a success of the
    third, which was not executed (its data are zeros); the first callback never runs. *)
Theorem C85_out_of_time_refuted : exists s' : executer sgio (linux_world (queue sg_hdr Z)),
  program_runs (linux_os (A := unit) any_sense (patient counting) 3000)
    (executer_init 2 (LinuxWorld [] (Queue [Run 1; HandOver 0; Run 0; HandOver 0] 7 [] []) None))
    [Submit 1 (ReadCmd [18] 2); Call 2 (ReadCmd [37] 2); Submit 3 (ReadCmd [8] 2); WaitAll] s'
    [Went; Answered (RespData (Some [7; 37])); Went; Went] /\
  cb_log s' = [(2%nat, RespData (Some [7; 37])); (3%nat, RespData (Some [0; 0]))] /\
  map (fun b => described_cdb b (l_heap (world s'))) (q_accepted (l_dev (world s'))) = [[8]].
Proof.
  pose (os := linux_os (A := unit) any_sense (patient counting) 3000).
  pose (s0 := executer_init 2 (LinuxWorld [] (Queue [Run 1; HandOver 0; Run 0; HandOver 0] 7 [] []) None)
    : executer sgio (linux_world (queue sg_hdr Z))).
  destruct (sync_wait 60 (send os (ReadCmd [18] 2) (Some 1%nat)) s0) as [[s1 o1]|] eqn:E1; [|vm_compute in E1; discriminate].
  destruct (sync_wait 60 (call os 2 (ReadCmd [37] 2)) s1) as [[s2 o2]|] eqn:E2;
    [|vm_compute in E1; inversion E1; subst; vm_compute in E2; discriminate].
  destruct (sync_wait 60 (send os (ReadCmd [8] 2) (Some 3%nat)) s2) as [[s3 o3]|] eqn:E3;
    [|vm_compute in E1; inversion E1; subst; vm_compute in E2; inversion E2; subst; vm_compute in E3; discriminate].
  destruct (sync_wait 60 (wait os) s3) as [[s4 o4]|] eqn:E4;
    [|vm_compute in E1; inversion E1; subst; vm_compute in E2; inversion E2; subst; vm_compute in E3; inversion E3; subst;
      vm_compute in E4; discriminate].
  exists s4. pose proof E1 as F1. pose proof E2 as F2. pose proof E3 as F3. pose proof E4 as F4.
  vm_compute in F1. inversion F1; subst s1 o1. vm_compute in F2. inversion F2; subst s2 o2.
  vm_compute in F3. inversion F3; subst s3 o3. vm_compute in F4. inversion F4; subst s4 o4. clear F1 F2 F3 F4.
  split; [|split; reflexivity].
  apply sync_wait_some_ends in E1, E2, E3, E4.
  eapply pg_submit; [exact E1|]. eapply (pg_call _ _ _ _ _ _ (RespData (Some [7; 37]))); [exact E2|].
  eapply pg_submit; [exact E3|]. eapply pg_wait; [exact E4|]. constructor.
Qed.

Print Assumptions C85_programs.
Print Assumptions C85_batch.
Print Assumptions C85_exactly_once.
Print Assumptions C85_out_of_time_refuted.
