(** Programs that go on after a read was given up.  (Models no code.) *)
From Coq Require Import ZArith List Bool.
From Verif Require Import Base OsCommon OsLinux SpecSg SpecQueue.
Import ListNotations.
Open Scope Z_scope.

(** The commands of a program. *)
Definition commands (ops : list op) : list scsi_command :=
  flat_map (fun o => match o with Submit _ c | Call _ c => [c] | WaitAll => [] end) ops.
(** One call after the other. *)
Definition calls (cmds : list (nat * scsi_command)) : list op := map (fun p => Call (fst p) (snd p)) cmds.
(** Programs that never wait(). *)
Definition never_waits (ops : list op) : Prop := Forall (fun o => o <> WaitAll) ops.

(** Status and sense of an answer without its data. *)
Definition without_data (a : answer) : answer := Answer (a_status a) (a_host a) (a_driver a) [] (a_sense a).

(** What calls see while nothing is ever answered: the first [max] of them are sent and given up,
    the others refused. *)
Definition unanswered (max : nat) (cmds : list (nat * scsi_command)) : list seen :=
  map (fun _ => Failed (EIO 0)) (firstn max cmds) ++ map (fun _ => Failed EName) (skipn max cmds).

(** ** What the device executes *)
Definition as_sent (c : scsi_command) : bytes * bytes := (command_of c, data_out c).
(** A target that keeps a record of the commands it has executed. *)
Definition recording {T} (tgt : target T) : target (T * list (bytes * bytes)) :=
  fun t cdb data => let (t', a) := tgt (fst t) cdb data in ((t', snd t ++ [(cdb, data)]), a).
Definition executed_all {T} (tgt : target T) (l : list (bytes * bytes)) (t : T) : T :=
  fold_left (fun t c => fst (tgt t (fst c) (snd c))) l t.
(** The commands of the operations that were not refused. *)
Fixpoint sent_commands (ops : list op) (l : list seen) : list (bytes * bytes) :=
  match ops, l with
  | Submit _ c :: ops, Went :: l => as_sent c :: sent_commands ops l
  | Call _ c :: ops, Answered _ :: l => as_sent c :: sent_commands ops l
  | Call _ c :: ops, Failed (EIO _) :: l => as_sent c :: sent_commands ops l
  | _ :: ops, _ :: l => sent_commands ops l
  | _, _ => []
  end.
