(** C114: in which order a device executes the commands of a program that goes on after a command was given up on Linux. *)
From Coq Require Import ZArith List Bool Lia.
From Verif Require Import Base BaseFacts Gen SpecGen GenFacts Executer OsCommon OsLinux SpecSg SpecSession SpecExecute ExampleLinux
  SpecQueue QueueFacts SpecGiveUp GiveUpFacts PropGiveUp SpecInsist InsistFacts.
Import ListNotations.
Local Open Scope Z_scope.

(** Who waits after every command that was given up until wait() succeeds has every command executed exactly once, in the order of
    the program, and its own answer given to it; and this for any number of commands, however small the queue is. *)
Theorem C114_insisting : forall T A sense_of (tgt : target T) timeout k cmds s script t, queue_idle s script t ->
  (forall t cdb data, linux_answer sense_of (snd (tgt t cdb data))) ->
  Forall fits (map snd cmds) -> NoDup (map fst cmds) -> (forall me, In me (map fst cmds) -> ~ In me (map fst (cb_log s))) ->
  exists ops l t' done s', insists tgt k t cmds ops l t' done /\
    program_runs (linux_os (A := A) sense_of (patient tgt) timeout) s ops s' l /\ q_target (l_dev (world s')) = t' /\
    (done = true -> pending s' = [] /\ cb_log s' = cb_log s ++ in_turn tgt t cmds /\
       t' = executed_all tgt (map (fun p => as_sent (snd p)) cmds) t).
Proof. exact @insisting. Qed.

(** Who goes on without waiting may have a command executed, and answered, before the earlier one that was given up: whatever
    the earlier command does then happens after all and on top of the later one. *)
Theorem C114_overtaken_refuted : forall T A sense_of (tgt : target T) timeout s rest t me1 c1 me2 c2 t2 a2 t1 a1,
  queue_idle s ([Silence; Run 1; HandOver 0; Run 0; HandOver 0] ++ rest) t ->
  (forall t cdb data, linux_answer sense_of (snd (tgt t cdb data))) -> fits c1 -> fits c2 -> 2 <= max_queue_size s -> me1 <> me2 ->
  ~ In me1 (map fst (cb_log s)) -> ~ In me2 (map fst (cb_log s)) ->
  tgt t (command_of c2) (data_out c2) = (t2, a2) -> tgt t2 (command_of c1) (data_out c1) = (t1, a1) ->
  exists s', program_runs (linux_os (A := A) sense_of (patient tgt) timeout) s [Call me1 c1; Call me2 c2; WaitAll] s'
      [Failed (EIO 0); Answered (linux_expected c2 a2); Went] /\
    cb_log s' = cb_log s ++ [(me2, linux_expected c2 a2); (me1, linux_expected c1 a1)] /\ queue_idle s' rest t1.
Proof. exact @overtakes. Qed.

(** Who tries a command again that was given up may have it executed twice, and is told what the second execution says. *)
Theorem C114_repeated_refuted : forall T A sense_of (tgt : target T) timeout s rest t me1 me2 c t1 a1 t2 a2,
  queue_idle s ([Run 0; Silence; Run 0; HandOver 1; HandOver 0] ++ rest) t ->
  (forall t cdb data, linux_answer sense_of (snd (tgt t cdb data))) -> fits c -> 2 <= max_queue_size s -> me1 <> me2 ->
  ~ In me1 (map fst (cb_log s)) -> ~ In me2 (map fst (cb_log s)) ->
  tgt t (command_of c) (data_out c) = (t1, a1) -> tgt t1 (command_of c) (data_out c) = (t2, a2) ->
  exists s', program_runs (linux_os (A := A) sense_of (patient tgt) timeout) s [Call me1 c; Call me2 c; WaitAll] s'
      [Failed (EIO 0); Answered (linux_expected c a2); Went] /\
    cb_log s' = cb_log s ++ [(me2, linux_expected c a2); (me1, linux_expected c a1)] /\ queue_idle s' rest t2.
Proof. exact @repeated. Qed.

(** ** Examples: a device with one block of two bytes *)
Definition cell : target bytes := fun t cdb data =>
  if byte_at 0 cdb =? 42 then (data, Answer 0 0 0 [] [])
  else if byte_at 0 cdb =? 137 then
    if list_eq_dec Z.eq_dec (firstn 2 data) t then (skipn 2 data, Answer 0 0 0 [] []) else (t, Answer 2 0 8 [] [112; 0; 14])
  else (t, Answer 0 0 0 t []).
Definition cell_os := linux_os (A := unit) any_sense (patient cell) 10000.
Definition cell_ex (n : Z) (script : list device_event) : executer sgio (linux_world (queue sg_hdr bytes)) :=
  executer_init n (LinuxWorld [] (Queue script [0; 0] [] []) None).
Definition put (d : bytes) : scsi_command := WriteCmd [42; 0; 0; 0; 0; 0; 0; 0; 1; 0] d.
Definition get : scsi_command := ReadCmd [40; 0; 0; 0; 0; 0; 0; 0; 1; 0] 2.
Definition swap (old new : bytes) : scsi_command := WriteCmd [137; 0; 0; 0; 0; 0; 0; 0; 0; 0; 0; 0; 0; 1; 0; 0] (old ++ new).
Definition celled n script ops :=
  option_map (fun p => (snd p, length (pending (fst p)), q_target (l_dev (world (fst p))))) (run_program cell_os (cell_ex n script) ops).
Lemma cell_answers : forall t cdb data, linux_answer any_sense (snd (cell t cdb data)).
Proof. intros t cdb data H. reflexivity. Qed.

(** A queue of one place, four commands; the first is executed late, the third answered late. *)
Definition lazy : list device_event := [Silence; Silence; Run 0; HandOver 0; Run 0; HandOver 0; Run 0; Silence; HandOver 0; Run 0; HandOver 0].
Definition four : list (nat * scsi_command) := [(1%nat, put [1; 1]); (2%nat, get); (3%nat, put [3; 3]); (4%nat, get)].
Example C114_insisting_hypotheses : queue_idle (cell_ex 1 lazy) lazy [0; 0] /\ Forall fits (map snd four) /\ NoDup (map fst four).
Proof. split; [repeat split; cbn; lia|]. split; [repeat constructor|]. cbn. repeat constructor; cbn; intuition congruence. Qed.
Definition insisted_ops : list op := [Call 1 (put [1; 1]); WaitAll; WaitAll; Call 2 get; Call 3 (put [3; 3]); WaitAll; Call 4 get].
Definition insisted_seen : list seen :=
  [Failed (EIO 0); Failed (EIO 0); Went; Answered (RespData (Some [1; 1])); Failed (EIO 0); Went; Answered (RespData (Some [3; 3]))].
Example C114_insisting_insists : insists cell 3 [0; 0] four insisted_ops insisted_seen [3; 3] true.
Proof.
  eapply (in_late cell 3 _ 1 _ _ 1); [lia|reflexivity|]. apply (in_answered cell 3 [1; 1] 2 get _ [1; 1] (Answer 0 0 0 [1; 1] [])); [reflexivity|].
  eapply (in_late cell 3 _ 3 _ _ 0); [lia|reflexivity|]. apply (in_answered cell 3 [3; 3] 4 get _ [3; 3] (Answer 0 0 0 [3; 3] [])); [reflexivity|]. constructor.
Qed.
Example C114_insisting_example : celled 1 lazy insisted_ops = Some (insisted_seen, 0%nat, [3; 3]).
Proof. vm_compute. reflexivity. Qed.
(** The third command is lost after it was executed. *)
Example C114_insisting_lost_example : celled 1 [Run 0; HandOver 0; Run 0; HandOver 0; Run 0; Silence] [Call 1 (put [1; 1]); Call 2 get; Call 3 (put [3; 3]); WaitAll; WaitAll] =
  Some ([Answered (RespData None); Answered (RespData (Some [1; 1])); Failed (EIO 0); Failed (EIO 0); Failed (EIO 0)], 1%nat, [3; 3]).
Proof. vm_compute. reflexivity. Qed.
Example C114_insisting_lost_insists : insists cell 2 [0; 0] four [Call 1 (put [1; 1]); Call 2 get; Call 3 (put [3; 3]); WaitAll; WaitAll]
  [Answered (RespData None); Answered (RespData (Some [1; 1])); Failed (EIO 0); Failed (EIO 0); Failed (EIO 0)] [3; 3] false.
Proof.
  apply (in_answered cell 2 [0; 0] 1 (put [1; 1]) _ [1; 1] (Answer 0 0 0 [] [])); [reflexivity|].
  apply (in_answered cell 2 [1; 1] 2 get _ [1; 1] (Answer 0 0 0 [1; 1] [])); [reflexivity|]. apply in_lost. right. reflexivity.
Qed.

(** The write of [1; 1] is given up, that of [2; 2] succeeds, and at the end the block holds [1; 1]. *)
Definition overtaking : list device_event := [Silence; Run 1; HandOver 0; Run 0; HandOver 0].
Example C114_overtaken_hypotheses : queue_idle (cell_ex 15 overtaking) (overtaking ++ []) [0; 0] /\ fits (put [1; 1]) /\ fits (put [2; 2]) /\
  cell [0; 0] (command_of (put [2; 2])) (data_out (put [2; 2])) = ([2; 2], Answer 0 0 0 [] []) /\
  cell [2; 2] (command_of (put [1; 1])) (data_out (put [1; 1])) = ([1; 1], Answer 0 0 0 [] []).
Proof. split; [repeat split; cbn; lia|]. repeat split. Qed.
Example C114_overtaken_example : celled 15 overtaking [Call 1 (put [1; 1]); Call 2 (put [2; 2]); WaitAll] =
  Some ([Failed (EIO 0); Answered (RespData None); Went], 0%nat, [1; 1]).
Proof. vm_compute. reflexivity. Qed.
(** The same program on a device that is as slow but keeps the order. *)
Example C114_not_overtaken_example : celled 15 [Silence; Run 0; Run 0; HandOver 1; HandOver 0] [Call 1 (put [1; 1]); Call 2 (put [2; 2]); WaitAll] =
  Some ([Failed (EIO 0); Answered (RespData None); Went], 0%nat, [2; 2]).
Proof. vm_compute. reflexivity. Qed.

(** COMPARE AND WRITE of [1; 1] over [0; 0], given up and tried again: it seems to have failed because of another
    initiator, but it has written. *)
Definition repeating : list device_event := [Run 0; Silence; Run 0; HandOver 1; HandOver 0].
Example C114_repeated_hypotheses : queue_idle (cell_ex 15 repeating) (repeating ++ []) [0; 0] /\ fits (swap [0; 0] [1; 1]).
Proof. split; [repeat split; cbn; lia|]. repeat split. Qed.
Definition miscompare : exn := EAsiCheckCondition (pad 255 [112; 0; 14]).
Example C114_repeated_example : celled 15 repeating [Call 1 (swap [0; 0] [1; 1]); Call 2 (swap [0; 0] [1; 1]); WaitAll] =
  Some ([Failed (EIO 0); Failed miscompare; Went], 0%nat, [1; 1]).
Proof. vm_compute. reflexivity. Qed.

Print Assumptions C114_insisting.
Print Assumptions C114_overtaken_refuted.
Print Assumptions C114_repeated_refuted.
