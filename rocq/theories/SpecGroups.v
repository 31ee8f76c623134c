(** Reading all target port groups of a device: a coroutine that asks for the length first, and what is seen of lists of
    groups that do not fit.  Models no code of /repo; the program is one that a user would write. *)
From Coq Require Import String ZArith List Bool.
From Verif Require Import Base OsCommon Instruct Command SpecDevice SpecCdb SpecSg SpecDrivers SpecExecute SpecAdaptive SpecAlua.
Import ListNotations.
Local Open Scope string_scope.
Local Open Scope list_scope.
Local Open Scope Z_scope.

(** response = yield RTPGCommand(allocation_length=4).execute(executer)
    yield RTPGCommand(allocation_length=4 + response.data_length).execute(executer) *)
Definition fetch_groups : prog :=
  Do (Rtpg 0 4) (fun r =>
    match r with
    | Ok v => match attribute_of "data_length" v with Some (PInt n) => Do (Rtpg 0 (4 + n)) finish | _ => Fail EAttribute end
    | Err e => Fail e
    end).

(** Groups whose ports and status codes are read as they are (C60). *)
Definition readable_groups (groups : list port_group) : Prop :=
  Forall (fun g => group_ok g /\ g_status g < 128 /\ zlen (g_ports g) < 128) groups /\ zlen (flat_map group_data groups) < 2 ^ 31 - 4.
(** A device that answers REPORT TARGET PORT GROUPS with the groups that it has at the time, cut at the allocation length. *)
Record reports_groups {T} (tgt : target T) (groups : T -> list port_group) (next : T -> T) : Prop := ReportsGroups {
  rg_groups : forall t, readable_groups (groups t);
  rg_answer : forall t cdb data alloc, interpret cdb = Some (OpReportTargetPortGroups 0 alloc) ->
    tgt t cdb data = (next t, good (firstn (Z.to_nat alloc) (length_only_data (groups t))))
}.

(** The response object for these groups, out of so many bytes of groups. *)
Definition some_groups (bytes_of_all : Z) (l : list port_group) : pyval :=
  groups_object "TargetPortGroupLengthOnlyResponse" [("data_length", PInt bytes_of_all)] l.
Definition bytes_of (groups : list port_group) : Z := zlen (flat_map group_data groups).
