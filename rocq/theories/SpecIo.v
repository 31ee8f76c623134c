(** Specification vocabulary for reading with a timeout and for the context managers. *)
From Coq Require Import ZArith List.
From Verif Require Import Base UnixIo Contexts.
Open Scope Z_scope.

(** Before poll [k]: every earlier poll found nothing to read, and the time looked at after
    it was within the timeout. *)
Definition kept_waiting (env : io_env) (timeout : Z) (k : nat) : Prop :=
  forall j, (j < k)%nat -> select env j = Ok false /\ clock env (S j) <= clock env 0 + timeout.

(** The executer that the body of a with statement gets, and the timeout that is passed to
    its constructor: linux_dm gives the ioctl executer wherever it is used, the others the
    executer of the system; linux_sg alone asks for a timeout (and cannot on Windows). *)
Definition gives (m : manager) (p : platform) : option (executer_class * option Z) :=
  match m, p with
  | MLinuxDm, _ => Some (CLinuxIoctl, None)
  | _, POther => None
  | MLinuxSg, PWindows => None
  | MLinuxSg, PLinux => Some (CLinux, Some 3000)
  | MLinuxSg, PSolaris => Some (CSolaris, Some 3000)
  | MLinuxSg, PAix => Some (CAix, Some 3000)
  | _, PWindows => Some (CWin32, None)
  | _, PLinux => Some (CLinux, None)
  | _, PSolaris => Some (CSolaris, None)
  | _, PAix => Some (CAix, None)
  end.
(** The file object that is opened: blocking but on Solaris; none on an unknown system. *)
Definition opens (p : platform) : option file_class :=
  match p with
  | PWindows => Some CWin32File
  | PLinux | PAix => Some (CUnixFile false)
  | PSolaris => Some (CUnixFile true)
  | POther => None
  end.
