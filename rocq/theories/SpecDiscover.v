(** Specification of programs that read the VPD pages and the SES pages of a device, and of such
    devices.  Models no code of /repo; the programs are those that a user would write, the
    second like tests/ses_example.py. *)
From Coq Require Import String ZArith List Bool.
From Verif Require Import Base OsCommon Instruct Command SpecDevice SpecCdb SpecSg SpecDrivers SpecExecute SpecAdaptive SpecLayout SpecPages SpecVpd SpecSes
  Pages Ses.
Import ListNotations.
Local Open Scope string_scope.
Local Open Scope list_scope.
Local Open Scope Z_scope.

(** * VPD pages *)

(** get_vpd_page(code)() *)
Definition vpd_command (code : Z) : command := Inquiry 1 code (fst (vpd_page code)) (unpack (get_vpd_page_data code)).
(** A coroutine that reads the page of supported pages and then every page listed there; it yields the
    list of the pairs of page code and page. *)
Fixpoint visit (codes : list pyval) (found : list pyval) : prog :=
  match codes with
  | [] => Return (PList found)
  | PInt code :: rest =>
      Do (vpd_command code) (fun r =>
        match r with
        | Ok page => visit rest (found ++ [PList [PInt code; page]])
        | Err e => Fail e
        end)
  | _ :: rest => Fail EType
  end.
Definition all_pages : prog :=
  Do (vpd_command 0) (fun r =>
    match r with
    | Ok (PObj _ l) => match lookup "vpd_parameters" l with Some (PList codes) => visit codes [] | _ => Fail EAttribute end
    | Ok _ => Fail EAttribute
    | Err e => Fail e
    end).

(** A device with these pages, each cut at the allocation length; page 0 lists the others. *)
Definition page_00 (type qualifier : Z) (codes : list Z) : bytes := [type + 32 * qualifier; 0; 0; zlen codes] ++ codes.
Definition reports_pages {T} (tgt : target T) (codes : list Z) (page : Z -> bytes) : Prop :=
  Forall (below 8) codes /\
  forall t cdb d code alloc, In code codes -> interpret cdb = Some (OpInquiry 1 code alloc) ->
    exists t', tgt t cdb d = (t', good (firstn (Z.to_nat alloc) (page code))).
(** What the library makes of a page, whatever number of zeros follows. *)
Definition reads_as (code : Z) (page : bytes) (r : result pyval) : Prop :=
  forall m, unpack (get_vpd_page_data code) (page ++ zeros m) = r.
(** All the pages, or the first exception. *)
Fixpoint collected (codes : list Z) (page : Z -> result pyval) : result (list pyval) :=
  match codes with
  | [] => Ok []
  | c :: rest =>
      match page c, collected rest page with
      | Ok v, Ok l => Ok (PList [PInt c; v] :: l)
      | Ok _, Err e => Err e
      | Err e, _ => Err e
      end
  end.
Definition listed (r : result (list pyval)) : result pyval := match r with Ok l => Ok (PList l) | Err e => Err e end.

(** The objects for some pages. *)
Definition device_value (type qualifier : Z) : string * pyval :=
  ("peripheral_device", PObj "PeripheralDeviceDataBuffer" [("type", PInt type); ("qualifier", PInt qualifier)]).
Definition page_00_object (type qualifier : Z) (codes : list Z) : pyval :=
  PObj "SupportedVPDPagesBuffer"
    [device_value type qualifier; ("page_code", PInt 0); ("page_length", PInt (zlen codes)); ("vpd_parameters", PList (map PInt codes))].
Definition page_80_object (type qualifier : Z) (serial : bytes) : pyval :=
  PObj "UnitSerialNumberVPDPageBuffer"
    [device_value type qualifier; ("page_code", PInt 128); ("page_length", PInt (zlen serial)); ("product_serial_number", PBytes (strip serial))].
Definition other_page (type qualifier code : Z) (data : bytes) : bytes := [type + 32 * qualifier; code] ++ be_bytes 2 (zlen data) ++ data.
Definition other_page_object (type qualifier code : Z) (data : bytes) : pyval :=
  PObj "UnknownVPDPageBuffer"
    [device_value type qualifier; ("page_code", PInt code); ("page_length", PInt (zlen data)); ("page_data", PList (map PInt data))].
(** Logical block provisioning, SBC-4 6.6.5, with no or some provisioning group descriptor. *)
Definition provisioning_object (page : bytes) (descriptor : pyval) : pyval :=
  PObj "LogicalBlockProvisioningVPDPageBuffer"
    (peripheral_value page :: layout_values provisioning_layout page ++ [("provisioning_group_descriptor", descriptor)]).
(** The object for an empty vendor specific designator. *)
Definition empty_designator : pyval :=
  PObj "VendorSpecificDesignator"
    [("code_set", PInt 0); ("protocol_identifier", PInt 0); ("designator_type", PInt 0); ("association", PInt 0); ("piv", PInt 0);
     ("reserved", PInt 0); ("designator_length", PInt 0); ("vendor_specific_identifier", PBytes [])].

(** * SES pages *)

(** ses_pages.get_ses_page(code), with the configuration page for 2 and 7. *)
Definition ses_command (lib : library) (code : Z) (conf : pyval) : command :=
  ReceiveDiagnostic code (ses_allocation code) (get_ses_page_data lib code conf).
Definition show_ses (lib : library) (code : Z) : prog :=
  if (code =? 2) || (code =? 7) then
    Do (ses_command lib 1 PNone) (fun r =>
      match r with
      | Ok conf => Do (ses_command lib code conf) finish
      | Err e => Fail e
      end)
  else Do (ses_command lib code PNone) finish.

(** A device with these pages, which may depend on its state. *)
Definition reports_diagnostics {T} (tgt : target T) (page : T -> Z -> bytes) (next : T -> T) : Prop :=
  forall t cdb d code alloc, interpret cdb = Some (OpReceiveDiagnostic 1 code alloc) ->
    tgt t cdb d = (next t, good (firstn (Z.to_nat alloc) (page t code))).
(** Configurations in which no count and no length is above 127. *)
Definition moderate_configuration (l : list enclosure) : Prop :=
  Forall enclosure_ok l /\ l <> [] /\ (length l <= 128)%nat /\ Forall (fun e => zlen (e_types e) < 128) l /\
  Forall (fun t => zlen (t_text t) < 128 /\ t_elements t < 128) (all_types l) /\ zlen (configuration_body l) <= 65527.
(** The elements of another configuration with the same numbers of elements, taken as those of this one. *)
Definition retyped (types : list element_type) (gs : list (group bytes)) : list (group bytes) :=
  map (fun tg => Group (fst tg) (g_overall (snd tg)) (g_elements (snd tg))) (combine types gs).
