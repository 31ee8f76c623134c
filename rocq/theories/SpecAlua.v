(** Asymmetric access to a logical unit (ALUA): a coroutine that finds the paths that lead through active/optimized target
    ports, and arrays with such ports.  Models no code of /repo; the program is one that a user would write. *)
From Coq Require Import String ZArith List Bool.
From Verif Require Import Base OsCommon Instruct Command SpecDevice SpecCdb SpecSg SpecDrivers SpecExecute SpecAdaptive SpecPages SpecVpd SpecDiscover SpecPaths.
Import ListNotations.
Local Open Scope string_scope.
Local Open Scope list_scope.
Local Open Scope Z_scope.

(** * The coroutine *)

(** getattr(v, name) *)
Definition attribute_of (name : string) (v : pyval) : option pyval := match v with PObj _ l => lookup name l | _ => None end.
Definition items_of (v : option pyval) : list pyval := match v with Some (PList l) => l | _ => [] end.
Definition has_number (name : string) (n : Z) (v : pyval) : bool := match attribute_of name v with Some (PInt x) => x =? n | _ => false end.

(** [g.target_port_group for g in response.descriptor_list if g.asymetric_access_state == 0] *)
Definition optimized_groups (response : pyval) : list pyval :=
  flat_map (fun g => if has_number "asymetric_access_state" 0 g then match attribute_of "target_port_group" g with Some n => [n] | None => [] end else [])
    (items_of (attribute_of "descriptor_list" response)).
(** any(d.designator_type == 5 and d.target_port_group in optimized for d in page.designators_list) *)
Definition among (n : Z) (l : list pyval) : bool := existsb (fun v => match v with PInt x => x =? n | _ => false end) l.
Definition leads_to (optimized : list pyval) (page : pyval) : bool :=
  existsb (fun d => has_number "designator_type" 5 d && match attribute_of "target_port_group" d with Some (PInt n) => among n optimized | _ => false end)
    (items_of (attribute_of "designators_list" page)).
Fixpoint check_paths (ds : list nat) (optimized : list pyval) (found : list pyval) : job :=
  match ds with
  | [] => JReturn (PList found)
  | d :: rest => Via d (vpd_command 131) (fun r =>
      match r with
      | Ok page => check_paths rest optimized (if leads_to optimized page then found ++ [PInt (Z.of_nat d)] else found)
      | Err _ => check_paths rest optimized found
      end)
  end.
(** REPORT TARGET PORT GROUPS on the first path that works, then the device identification page on each path. *)
Definition optimized_paths (ds : list nat) : job :=
  JCall (failover ds (Rtpg 0 16384)) (fun r =>
    match r with
    | Ok response => check_paths ds (optimized_groups response) []
    | Err e => JFail e
    end).

(** * Arrays *)

(** Path [d] leads to a port of which the device identification page has the designators [ids d]; on those that are not up
    nothing is answered. *)
Record alua_array {T} (tgt : nat -> target T) (groups : list port_group) (type qualifier : Z) (ids : nat -> list designator) (up : nat -> bool) : Prop := AluaArray {
  aa_ids : forall d, Forall designator_ok (ids d) /\ zlen (flat_map descriptor_bytes (ids d)) <= 248;
  aa_type : below 5 type /\ below 3 qualifier;
  aa_down : forall d t cdb data, up d = false -> exists t' a, tgt d t cdb data = (t', a) /\ gone a;
  aa_groups : forall d t cdb data alloc, up d = true -> interpret cdb = Some (OpReportTargetPortGroups 0 alloc) ->
    exists t', tgt d t cdb data = (t', good (firstn (Z.to_nat alloc) (length_only_data groups)));
  aa_page : forall d t cdb data alloc, up d = true -> interpret cdb = Some (OpInquiry 1 131 alloc) ->
    exists t', tgt d t cdb data = (t', good (firstn (Z.to_nat alloc) (page_83 type qualifier (flat_map descriptor_bytes (ids d)))))
}.
(** The numbers of the target port groups of a port, and whether one of them is active/optimized. *)
Definition group_numbers (l : list designator) : list Z := flat_map (fun d => match d_id d with SpecPages.PortGroup n => [n] | _ => [] end) l.
Definition optimized (groups : list port_group) (l : list designator) : bool :=
  existsb (fun g => (g_state g =? 0) && existsb (Z.eqb (g_number g)) (group_numbers l)) groups.
(** Groups that are reported completely. *)
Definition moderate_groups (groups : list port_group) : Prop :=
  Forall (fun g => group_ok g /\ g_status g < 128 /\ zlen (g_ports g) < 128) groups /\ zlen (length_only_data groups) <= 16384.
