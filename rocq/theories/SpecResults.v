(** Specification vocabulary for the value that execute() yields.  Models no code of /repo. *)
From Coq Require Import String ZArith List Bool.
From Verif Require Import Base Instruct SpecCdb.
Import ListNotations.
Local Open Scope string_scope.
Local Open Scope Z_scope.

(** The commands whose answer is a structure with fields, or that have an answer of their
    own; all the others hand the data of the device to the caller. *)
Definition hands_over (c : command) : bool :=
  match c with
  | ReadCapacity10 _ _ | ReadCapacity16 _ _ | TestUnitReady | ReportLuns _ _ _ | Rtpg _ _ | ReceiveCopy _
  | ReceiveDiagnostic _ _ _ | Inquiry _ _ _ _ | PrIn _ _ => false
  | _ => true
  end.
(** The data of the device as a Python value. *)
Definition as_it_is (d : option bytes) : pyval := match d with None => PNone | Some b => PBytes b end.
