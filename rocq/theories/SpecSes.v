(** Specification of the SES diagnostic pages, written from SES-3 with the attribute names of
    the library.  Models no code of /repo. *)
From Coq Require Import String ZArith List Bool.
From Verif Require Import Base Instruct SpecDevice SpecLayout.
Import ListNotations.
Local Open Scope string_scope.
Local Open Scope Z_scope.

(** The number that [n] bytes hold, taken as two's complement. *)
Definition signed (n : nat) (v : Z) : Z :=
  if 2 ^ (8 * Z.of_nat n - 1) <=? v then v - 2 ^ (8 * Z.of_nat n) else v.

(** * Status elements, SES-3 7.3

    An element has four bytes.  The places below count from its first byte. *)
Definition common_layout : layout :=
  [("element_status_code", Bits 0 0 4); ("swap", flag 0 4); ("disabled", flag 0 5); ("prdfail", flag 0 6)].
Definition slot_layout : layout :=
  [("report", flag 2 0); ("ident", flag 2 1); ("rmv", flag 2 2); ("ready_insert", flag 2 3); ("encl_bypassed_b", flag 2 4);
   ("encl_bypassed_a", flag 2 5); ("do_not_remove", flag 2 6); ("app_client_bypassed_a", flag 2 7);
   ("device_bypassed_b", flag 3 0); ("device_bypassed_a", flag 3 1); ("bypassed_b", flag 3 2); ("bypassed_a", flag 3 3);
   ("device_off", flag 3 4); ("fault_reqstd", flag 3 5); ("fault_sensed", flag 3 6); ("app_client_bypassed_b", flag 3 7)].
Definition fail_ident_layout : layout := [("fail", flag 1 6); ("ident", flag 1 7)].

(** Type, names of the classes of the element and of its status information, places by the
    standard, places that the library uses instead. *)
Record element_kind := Kind { k_class : string; k_info : string; k_layout : layout; k_deviations : layout }.
Definition element_kinds : list (Z * element_kind) :=
  [(1, Kind "DeviceSlotStatusElement" "DeviceSlotElementInfo"
         (("slot_address", Num 1 2) :: slot_layout) [("slot_address", SNum 1 2)]);
   (2, Kind "PowerSupplyStatusElement" "PowerSupplyElementInfo"
         [("ident", flag 1 7); ("dc_over_current", flag 2 1); ("dc_under_voltage", flag 2 2); ("dc_over_voltage", flag 2 3);
          ("dc_fail", flag 3 0); ("ac_fail", flag 3 1); ("temp_warn", flag 3 2); ("overtmp_fail", flag 3 3); ("off", flag 3 4);
          ("reqstd_on", flag 3 5); ("fail", flag 3 6); ("hot_swap", flag 3 7)] []);
   (3, Kind "CoolingStatusElement" "CoolingElementInfo"
         [("fan_speed", Mid 1 3 0 11); ("ident", flag 1 7); ("speed_code", Bits 3 0 3); ("off", flag 3 4);
          ("reqstd_on", flag 3 5); ("fail", flag 3 6); ("hot_swap", flag 3 7)] [("fan_speed", Swapped 1 0 3 2)]);
   (4, Kind "TempSensorStatusElement" "TempSensorElementInfo"
         (fail_ident_layout ++ [("temperature", Num 2 3); ("ut_warn", flag 3 0); ("ut_fail", flag 3 1); ("ot_warn", flag 3 2);
                                ("ot_fail", flag 3 3)])%list [("temperature", SNum 2 3)]);
   (5, Kind "DoorElementStatusElement" "DoorElementInfo"
         (fail_ident_layout ++ [("unlocked", flag 3 0); ("door_open", flag 3 1)])%list []);
   (6, Kind "AudibleAlarmStatusElement" "AudibleAlarmElementInfo"
         (fail_ident_layout ++ [("tui_unrecov", flag 3 0); ("tui_crit", flag 3 1); ("tui_non_crit", flag 3 2);
                                ("tui_info", flag 3 3); ("remind", flag 3 4); ("muted", flag 3 6); ("rqst_mute", flag 3 7)])%list []);
   (7, Kind "EnclosureServiceControllerStatusElement" "EnclosureServiceControllerElementInfo"
         (fail_ident_layout ++ [("report", flag 2 0); ("hot_swap", flag 3 7)])%list []);
   (8, Kind "SccControllerStatusElement" "SccControllerElementInfo" (fail_ident_layout ++ [("report", flag 2 0)])%list []);
   (9, Kind "NonVolotileCacheStatusElement" "NonVolotileCacheElementInfo"
         (("size_mult", Bits 1 0 2) :: fail_ident_layout ++ [("cache_size", Num 2 4)])%list [("cache_size", SNum 2 4)]);
   (10, Kind "InvalidOpReasonStatusElement" "InvalidOpReasonElementInfo"
         [("invop_type", Bits 1 6 2); ("invop_bytes", Num 2 4)] [("invop_bytes", SNum 2 4)]);
   (11, Kind "UninterruptiblePowerSupplyStatusElement" "UninterruptiblePowerSupplyElementInfo"
         [("battery_status", Num 1 2); ("intf_fail", flag 2 0); ("warn", flag 2 1); ("ups_fail", flag 2 2); ("dc_fail", flag 2 3);
          ("ac_fail", flag 2 4); ("ac_qual", flag 2 5); ("ac_hi", flag 2 6); ("ac_low", flag 2 7); ("bpf", flag 3 0);
          ("batt_fail", flag 3 1); ("fail", flag 3 6); ("ident", flag 3 7)] [("battery_status", SNum 1 2)]);
   (12, Kind "DisplayStatusElement" "DisplayElementInfo"
         (("display_mode_status", Bits 1 0 2) :: fail_ident_layout ++ [("display_char_status", Num 2 4)])%list
         [("display_char_status", SNum 2 4)]);
   (13, Kind "KeypadStatusElement" "KeypadElementInfo" fail_ident_layout []);
   (14, Kind "EnclosureStatusElement" "EnclosureElementInfo"
         [("ident", flag 1 7); ("warn_indication", flag 2 0); ("failure_indication", flag 2 1);
          ("time_until_power_cycle", Bits 2 2 6); ("warn_requested", flag 3 0); ("failure_requested", flag 3 1);
          ("requested_power_off_duration", Bits 3 2 6)]
         [("warn_requested", flag 2 0); ("failure_requested", flag 2 1); ("requested_power_off_duration", Bits 2 2 6)]);
   (15, Kind "ScsiPortTransceiverStatusElement" "ScsiPortTransceiverElementInfo"
         (fail_ident_layout ++ [("report", flag 2 0); ("xmit_fail", flag 3 0); ("lol", flag 3 1); ("disabled", flag 3 4)])%list []);
   (16, Kind "LanguageStatusElement" "LanguageElementInfo"
         [("ident", flag 1 7); ("language_code", Num 2 4)] [("language_code", SNum 2 4)]);
   (17, Kind "CommunicationPortStatusElement" "CommunicationPortElementInfo"
         (fail_ident_layout ++ [("disabled", flag 3 0)])%list []);
   (18, Kind "VoltageSensorStatusElement" "VoltageSensorElementInfo"
         ([("crit_under", flag 1 0); ("crit_over", flag 1 1); ("warn_under", flag 1 2); ("warn_over", flag 1 3)] ++
          fail_ident_layout ++ [("voltage", SNum 2 4)])%list []);
   (19, Kind "CurrentSensorStatusElement" "CurrentSensorElementInfo"
         ([("crit_over", flag 1 1); ("warn_over", flag 1 3)] ++ fail_ident_layout ++ [("current", SNum 2 4)])%list []);
   (20, Kind "ScsiTargetPortStatusElement" "ScsiTargetPortElementInfo"
         (fail_ident_layout ++ [("report", flag 2 0); ("enabled", flag 3 0)])%list []);
   (21, Kind "ScsiInitiatorPortStatusElement" "ScsiInitiatorPortElementInfo"
         (fail_ident_layout ++ [("report", flag 2 0); ("enabled", flag 3 0)])%list []);
   (22, Kind "SimpleSubenclosureStatusElement" "SimpleSubenclosureElementInfo"
         (fail_ident_layout ++ [("short_enclosure_status", Num 3 4)])%list [("short_enclosure_status", SNum 3 4)]);
   (23, Kind "ArrayDeviceSlotStatusElement" "ArrayDeviceSlotElementInfo"
         ([("rr_abort", flag 1 0); ("rebuild_remap", flag 1 1); ("in_failed_array", flag 1 2); ("in_crit_array", flag 1 3);
           ("cons_chk", flag 1 4); ("hot_spare", flag 1 5); ("rsvd_device", flag 1 6); ("ok", flag 1 7)] ++ slot_layout)%list []);
   (24, Kind "SasExpanderStatusElement" "SasExpanderElementInfo" fail_ident_layout []);
   (25, Kind "SasConnectorStatusElement" "SasConnectorElementInfo"
         [("connector_type", Bits 1 0 7); ("ident", flag 1 7); ("connector_phys_link", Num 2 3); ("fail", flag 3 6)]
         [("connector_phys_link", SNum 2 3)])].
Fixpoint kind_of (type : Z) (l : list (Z * element_kind)) : option element_kind :=
  match l with [] => None | (t, k) :: r => if type =? t then Some k else kind_of type r end.

(** The object for the four bytes [e] of an element of a type without its own layout, and of
    any type. *)
Definition general_object (e : bytes) : pyval :=
  PObj "GeneralStatusElement"
    (layout_values common_layout e ++
     [("status_info", PObj "GeneralElementInfo"
         [("general", PList [PInt (sb 1 2 e); PInt (sb 2 3 e); PInt (sb 3 4 e)])])])%list.
Definition element_object (type : Z) (e : bytes) : pyval :=
  match kind_of type element_kinds with
  | None => general_object e
  | Some k =>
      PObj (k_class k)
        (layout_values common_layout e ++
         [("status_info", PObj (k_info k) (layout_values (with_deviations (k_deviations k) (k_layout k)) e))])%list
  end.

(** * Configuration page, SES-3 6.1.2 *)

(** A type descriptor header with its text; an enclosure (or subenclosure) with the headers of
    its element types. *)
Record element_type := Type_ { t_type : Z; t_elements : Z; t_subenclosure : Z; t_text : bytes }.
Record enclosure := Enclosure { e_relative : Z; e_processes : Z; e_identifier : Z; e_logical : bytes; e_vendor : bytes;
                                e_product : bytes; e_revision : bytes; e_extra : bytes; e_types : list element_type }.
Definition is_byte (v : Z) : Prop := 0 <= v < 256.
Definition type_ok (t : element_type) : Prop :=
  is_byte (t_type t) /\ is_byte (t_elements t) /\ is_byte (t_subenclosure t) /\ bytes_ok (t_text t) /\ zlen (t_text t) < 256.
Definition text_of_length (n : nat) (b : bytes) : Prop := bytes_ok b /\ length b = n.
Definition enclosure_ok (e : enclosure) : Prop :=
  0 <= e_relative e < 8 /\ 0 <= e_processes e < 8 /\ is_byte (e_identifier e) /\
  text_of_length 8 (e_logical e) /\ text_of_length 8 (e_vendor e) /\ text_of_length 16 (e_product e) /\
  text_of_length 4 (e_revision e) /\ bytes_ok (e_extra e) /\ zlen (e_extra e) < 220 /\
  Forall type_ok (e_types e) /\ zlen (e_types e) < 256.

Definition enclosure_data (e : enclosure) : bytes :=
  ([e_processes e + 16 * e_relative e; e_identifier e; zlen (e_types e); 36 + zlen (e_extra e)] ++
   e_logical e ++ e_vendor e ++ e_product e ++ e_revision e ++ e_extra e)%list.
Definition header_data (t : element_type) : bytes :=
  [t_type t; t_elements t; t_subenclosure t; zlen (t_text t)].
Definition all_types (l : list enclosure) : list element_type := flat_map e_types l.
(** A page with its header: code, byte 1, length and generation code. *)
Definition ses_page (code byte1 generation : Z) (body : bytes) : bytes :=
  ([code; byte1] ++ be_bytes 2 (4 + zlen body) ++ be_bytes 4 generation ++ body)%list.
Definition configuration_body (l : list enclosure) : bytes :=
  (flat_map enclosure_data l ++ flat_map header_data (all_types l) ++ flat_map t_text (all_types l))%list.
Definition configuration_page (generation : Z) (l : list enclosure) : bytes :=
  ses_page 1 (zlen l - 1) generation (configuration_body l).

(** The objects.  Counts, identifiers, lengths and generation codes are taken as signed. *)
Definition header_object (t : element_type) : pyval :=
  PObj "TypeDescriptorHeader"
    [("element_type", PInt (t_type t)); ("possible_elements_num", PInt (signed 1 (t_elements t)));
     ("subenclosure_identifier", PInt (signed 1 (t_subenclosure t)));
     ("type_descriptor_text_length", PInt (signed 1 (zlen (t_text t))))].
Definition enclosure_object (e : enclosure) : pyval :=
  PObj "EnclosureDescriptor"
    [("enclosure_services_processes_num", PInt (e_processes e));
     ("relative_enclosure_services_process_identifier", PInt (e_relative e));
     ("subenclosure_identifier", PInt (signed 1 (e_identifier e)));
     ("type_descriptor_headers_num", PInt (signed 1 (zlen (e_types e))));
     ("enclosure_descriptor_length", PInt (36 + zlen (e_extra e)));
     ("enclosure_logical_identifier", PBytes (e_logical e));
     ("enclosure_vendor_identification", PBytes (strip (e_vendor e)));
     ("product_identification", PBytes (strip (e_product e)));
     ("product_revision_level", PBytes (strip (e_revision e)));
     ("vendor_specific_enclosure_information", PBytes (e_extra e))].
Definition configuration_object (generation length_of_body secondary : Z) (enclosures headers texts : list pyval) : pyval :=
  PObj "ConfigurationDiagnosticPagesData"
    [("page_code", PInt 1); ("secondary_subenclosures_num", PInt (signed 1 secondary));
     ("page_length", PInt (signed 2 (4 + length_of_body))); ("generation_code", PInt (signed 4 generation));
     ("enclosure_descriptor_list", PList enclosures); ("type_descriptor_header_list", PList headers);
     ("type_descriptor_text_list", PList texts)].
(** The number of type descriptor headers that follow, as the library counts them: a count above
    127 in an enclosure descriptor is taken as negative. *)
Definition counted (l : list enclosure) : Z := fold_right (fun e n => signed 1 (zlen (e_types e)) + n) 0 l.
(** The page in full. *)
Definition whole_configuration (generation : Z) (l : list enclosure) : pyval :=
  configuration_object generation (zlen (configuration_body l)) (zlen l - 1)
    (map enclosure_object l) (map header_object (all_types l)) (map (fun t => PBytes (t_text t)) (all_types l)).

(** * Status and element descriptor pages, SES-3 6.1.4 and 6.1.10 *)

(** The elements of one type: what the configuration says of them, the overall element
    and the individual elements ([A] is what the page holds of an element). *)
Record group (A : Type) := Group { g_type : element_type; g_overall : A; g_elements : list A }.
Arguments Group {A}. Arguments g_type {A}. Arguments g_overall {A}. Arguments g_elements {A}.
(** As many individual elements as the configuration says. *)
Definition group_complete {A} (g : group A) : Prop := zlen (g_elements g) = t_elements (g_type g).
Definition group_data {A} (enc : A -> bytes) (g : group A) : bytes :=
  (enc (g_overall g) ++ flat_map enc (g_elements g))%list.
Definition group_object {A} (class : string) (overall : A -> pyval) (one : element_type -> A -> pyval) (g : group A) : pyval :=
  PObj class [("type_descriptor_header", header_object (g_type g)); ("overall_element", overall (g_overall g));
              ("individual_elements", PList (map (one (g_type g)) (g_elements g)))].

(** Four bytes for each element. *)
Definition status_body (l : list (group bytes)) : bytes := flat_map (group_data (fun e => e)) l.
Definition status_page (flags generation : Z) (l : list (group bytes)) : bytes :=
  ses_page 2 flags generation (status_body l).
Definition status_page_object (flags generation body : Z) (descriptors : list pyval) : pyval :=
  PObj "EnclosureStatusDiagnosticPagesData"
    [("page_code", PInt 2); ("unrecov", PInt (flags mod 2)); ("crit", PInt (flags / 2 mod 2));
     ("non_crit", PInt (flags / 4 mod 2)); ("info", PInt (flags / 8 mod 2)); ("invop", PInt (flags / 16 mod 2));
     ("page_length", PInt (signed 2 (4 + body))); ("generation_code", PInt (signed 4 generation));
     ("status_descriptors", PList descriptors)].
Definition status_group_object : group bytes -> pyval :=
  group_object "StatusDescriptor" general_object (fun t => element_object (t_type t)).

(** Two reserved bytes, the length and the text of each element. *)
Definition element_text (text : bytes) : bytes := ([0; 0] ++ be_bytes 2 (zlen text) ++ text)%list.
Definition element_text_object (text : bytes) : pyval :=
  PObj "Descriptor" [("descriptor_length", PInt (zlen text)); ("descriptor", PBytes text)].
Definition descriptor_body (l : list (group bytes)) : bytes := flat_map (group_data element_text) l.
Definition descriptor_page (generation : Z) (l : list (group bytes)) : bytes :=
  ses_page 7 0 generation (descriptor_body l).
Definition descriptor_page_object (generation body : Z) (descriptors : list pyval) : pyval :=
  PObj "ElementDescriptorDiagnosticPagesData"
    [("page_code", PInt 7); ("page_length", PInt (signed 2 (4 + body))); ("generation_code", PInt (signed 4 generation));
     ("element_descriptors", PList descriptors)].
Definition descriptor_group_object : group bytes -> pyval :=
  group_object "ElementDescriptor" element_text_object (fun _ => element_text_object).

(** * Dispatch *)

(** Allocation length of a page and whether its command takes the configuration page. *)
Definition ses_allocation (code : Z) : Z :=
  if (code =? 0) || (code =? 128) then 255 else if (code =? 1) || (code =? 2) || (code =? 7) then 65535 else 2048.
Definition ses_arguments (code : Z) : nat := if (code =? 2) || (code =? 7) then 1 else 0.
