(** Programs on the SG_IO executer: what their user sees, and devices that differ in statuses only. *)
From Coq Require Import String ZArith List Bool.
From Verif Require Import Base Executer OsCommon SpecSg Command.
Import ListNotations.
Local Open Scope Z_scope.

(** Whatever the status: success, with the data that came, filled up with zeros. *)
Definition always_success (c : scsi_command) (a : answer) : resp := RespData (data_wanted c (a_data a)).

(** Two devices that accept the same commands in the same way and send the same data; their
    statuses, host and driver statuses and sense data may differ. *)
Definition same_data {T} (tgt tgt' : target T) : Prop := forall t cdb data,
  fst (tgt t cdb data) = fst (tgt' t cdb data) /\ a_data (snd (tgt t cdb data)) = a_data (snd (tgt' t cdb data)).

(** Objects that cannot be constructed or packed, or whose command the request block can describe. *)
Definition carried (r : result cdb_object) : Prop :=
  match r with
  | Err _ => True
  | Ok o => match request o with Err _ => True | Ok c => fits c end
  end.
