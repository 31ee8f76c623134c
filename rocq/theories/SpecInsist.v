(** Commands one after the other on a device that may be silent for longer than a read waits, with wait() after each command
    that was given up.  (Models no code.) *)
From Coq Require Import ZArith List Bool.
From Verif Require Import Base Executer OsCommon OsLinux SpecSg SpecSession SpecQueue.
Import ListNotations.
Open Scope Z_scope.

(** for c in commands:
        try: yield executer.call(c)
        except AsiException: pass             # the device's answer
        except IOError:                       # no answer in time
            for _ in range(k):
                try: yield executer.wait(); break
                except IOError: pass
            else: return

    [insists tgt k t cmds ops l t' done]: on a device [tgt] in state [t] that executes one command after the other this program
    may consist of the operations [ops], see [l], and leave the device in state [t'].  If it returned because a command is lost
    ([done] is false), the device may have executed this command or not. *)
Inductive insists {T} (tgt : target T) (k : nat) : T -> list (nat * scsi_command) -> list op -> list seen -> T -> bool -> Prop :=
| in_done : forall t, insists tgt k t [] [] [] t true
| in_answered : forall t me c cmds t1 a ops l t' done, tgt t (command_of c) (data_out c) = (t1, a) ->
    insists tgt k t1 cmds ops l t' done ->
    insists tgt k t ((me, c) :: cmds) (Call me c :: ops) (Answered (linux_expected c a) :: l) t' done
| in_late : forall t me c cmds i t1 a ops l t' done, (i < k)%nat -> tgt t (command_of c) (data_out c) = (t1, a) ->
    insists tgt k t1 cmds ops l t' done ->
    insists tgt k t ((me, c) :: cmds) (Call me c :: repeat WaitAll (S i) ++ ops) (repeat (Failed (EIO 0)) (S i) ++ Went :: l) t' done
| in_lost : forall t me c cmds t', t' = t \/ t' = fst (tgt t (command_of c) (data_out c)) ->
    insists tgt k t ((me, c) :: cmds) (Call me c :: repeat WaitAll k) (repeat (Failed (EIO 0)) (S k)) t' false.

(** What each command is answered when they are executed in turn. *)
Fixpoint in_turn {T} (tgt : target T) (t : T) (cmds : list (nat * scsi_command)) : list (nat * resp) :=
  match cmds with
  | [] => []
  | (me, c) :: rest => let (t1, a) := tgt t (command_of c) (data_out c) in (me, linux_expected c a) :: in_turn tgt t1 rest
  end.
