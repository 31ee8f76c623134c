(** Recognising a disk by its device identification page: programs that read the page, and what is seen of pages that do
    not fit into the allocation length.  Models no code of /repo; the programs are those that a user would write. *)
From Coq Require Import String ZArith List Bool.
From Verif Require Import Base OsCommon Instruct Command SpecDevice SpecCdb SpecSg SpecDrivers SpecExecute SpecAdaptive SpecPages SpecVpd SpecDiscover SpecPaths SpecAlua Pages.
Import ListNotations.
Local Open Scope string_scope.
Local Open Scope list_scope.
Local Open Scope Z_scope.

(** EVPDInquiryCommand(0x83, allocation_length, DeviceIdentificationVPDPageBuffer).execute(executer); the command class
    DeviceIdentificationVPDPageCommand has 252 for the allocation length. *)
Definition identify (alloc : Z) : prog := Do (Inquiry 1 131 alloc (unpack device_identification)) finish.
(** page = yield EVPDInquiryCommand(0x83, 4, DeviceIdentificationVPDPageBuffer).execute(executer)
    yield EVPDInquiryCommand(0x83, 4 + page.page_length, DeviceIdentificationVPDPageBuffer).execute(executer) *)
Definition identify_all : prog :=
  Do (Inquiry 1 131 4 (unpack device_identification)) (fun r =>
    match r with
    | Ok v => match attribute_of "page_length" v with Some (PInt n) => identify (4 + n) | _ => Fail EAttribute end
    | Err e => Fail e
    end).

(** * Devices *)

Record identity := Identity { i_type : Z; i_qualifier : Z; i_designators : list designator }.
Definition size_of (l : list designator) : Z := zlen (flat_map descriptor_bytes l).
Definition identity_ok (i : identity) : Prop :=
  below 5 (i_type i) /\ below 3 (i_qualifier i) /\ Forall designator_ok (i_designators i) /\ size_of (i_designators i) < 65536.
Definition page_of (i : identity) : bytes := page_83 (i_type i) (i_qualifier i) (flat_map descriptor_bytes (i_designators i)).
(** A device that answers with the page that it has at the time, cut at the allocation length. *)
Record identifies {T} (tgt : target T) (who : T -> identity) (next : T -> T) : Prop := Identifies {
  id_conforms : forall t, identity_ok (who t);
  id_answer : forall t cdb data alloc, interpret cdb = Some (OpInquiry 1 131 alloc) ->
    tgt t cdb data = (next t, good (firstn (Z.to_nat alloc) (page_of (who t))))
}.

(** * What is seen *)

(** The page with these objects for the designators; PAGE LENGTH is that of the device. *)
Definition page_with (i : identity) (designators : list pyval) : pyval :=
  PObj "DeviceIdentificationVPDPageBuffer"
    [device_value (i_type i) (i_qualifier i); ("page_code", PInt 131); ("page_length", PInt (size_of (i_designators i)));
     ("designators_list", PList designators)].
Definition whole_page (i : identity) : pyval := page_with i (map designator_object (i_designators i)).
(** Designators that are texts; the others are numbers. *)
Definition is_text (i : identifier) : bool :=
  match i with VendorSpecific _ | T10 _ _ | Md5 _ | ScsiName _ | ReservedType _ _ => true | _ => false end.
(** The object for a text designator of which only [n] bytes are there: the text is shorter, designator_length is not. *)
Definition cut_attrs (n : nat) (i : identifier) : attrs :=
  match i with
  | VendorSpecific id => [("vendor_specific_identifier", PBytes (firstn n id))]
  | T10 v id => [("t10_vendor_identification", PBytes (strip (firstn n v))); ("vendor_specific_identifier", PBytes (firstn (n - 8) id))]
  | Md5 id => [("md5_logical_unit_identifier", PBytes (firstn n id))]
  | ScsiName id => [("scsi_name_string", PBytes (firstn n id))]
  | ReservedType _ id => [("desginator", PBytes (strip (firstn n id)))]
  | _ => []
  end.
Definition cut_object (n : nat) (d : designator) : pyval :=
  PObj (id_class (d_id d))
    ([("code_set", PInt (d_code_set (d_info d))); ("protocol_identifier", PInt (d_protocol (d_info d)));
      ("designator_type", PInt (type_code (d_id d))); ("association", PInt (d_association (d_info d)));
      ("piv", PInt (d_piv (d_info d))); ("reserved", PInt 0); ("designator_length", PInt (zlen (id_bytes (d_id d))))]
     ++ cut_attrs n (d_id d)).
(** The designators of a page that was read. *)
Definition designators_in (v : pyval) (l : list pyval) : Prop := attribute_of "designators_list" v = Some (PList l).
