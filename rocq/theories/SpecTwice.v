(** Coroutine objects that are given to async_wait more than once. *)
From Coq Require Import ZArith List Bool.
From Verif Require Import Base OsCommon Instruct Command SpecDevice SpecExecute SpecCdb.
Import ListNotations.
Local Open Scope Z_scope.

(** The data buffer of a request to which the device has not answered: zeros. *)
Definition blank (k : scsi_command) : option bytes :=
  match k with
  | ReadCmd _ n => if 0 <? n then Some (zeros (Z.to_nat n)) else None
  | WriteCmd _ _ => None
  end.
(** What the class of the command makes of it. *)
Definition unanswered (c : command) (k : scsi_command) : result pyval := yields (constructed c) (blank k).
