(** SES diagnostic pages: src/infi/asi/cdb/diagnostic/ses_pages.  Paths relative to this
    directory.  Only unpacking is modelled. *)
From Coq Require Import String ZArith List Bool.
From Verif Require Import Base OsCommon Instruct Command CdbPrimary Pages.
Import ListNotations.
Local Open Scope string_scope.
Local Open Scope Z_scope.

(** An attribute of a parsed object, and the same if it must be a number.
    [e.g. enclosure_status.py:485] *)
Definition obj_attr (n : string) (o : pyval) : result pyval :=
  match o with
  | PObj _ l => match lookup n l with Some v => Ok v | None => Err EAttribute end
  | _ => Err EAttribute
  end.
(** [e.g. configuration.py:98-106] *)
Definition obj_int (n : string) (o : pyval) : result Z :=
  do v <- obj_attr n o; match v with PInt z => Ok z | _ => Err EType end.

(** * enclosure_status.py *)

(** int8, enclosure_status.py:7. *)
Definition elem_int8 : element := fun buf => do v <- read_int true (bytes_of 0 1) buf; Ok (PInt v, 1%nat).

(** The classes of the status information, enclosure_status.py.  [bytes_ref[1:]] of a class
    with byte_size = 3 is [bytes_of 1 3]. *)
(** GeneralElementInfo, enclosure_status.py:5-7. *)
Definition general_info : pyclass := PyClass "GeneralElementInfo" [("general", r_list elem_int8 0 to_end)].
(** The fields of bytes 1 and 2 that two classes share, enclosure_status.py:14-29, 43-58. *)
Definition slot_fields : list field :=
  [I "report" (bit 1 0); I "ident" (bit 1 1); I "rmv" (bit 1 2); I "ready_insert" (bit 1 3); I "encl_bypassed_b" (bit 1 4);
   I "encl_bypassed_a" (bit 1 5); I "do_not_remove" (bit 1 6); I "app_client_bypassed_a" (bit 1 7);
   I "device_bypassed_b" (bit 2 0); I "device_bypassed_a" (bit 2 1); I "bypassed_b" (bit 2 2); I "bypassed_a" (bit 2 3);
   I "device_off" (bit 2 4); I "fault_reqstd" (bit 2 5); I "fault_sensed" (bit 2 6); I "app_client_bypassed_b" (bit 2 7)].
(** enclosure_status.py:11-29. *)
Definition device_slot_fields : list field := I "slot_address" (byte_of 0) :: slot_fields.
(** enclosure_status.py:33-58. *)
Definition array_device_slot_fields : list field :=
  ([I "rr_abort" (bit 0 0); I "rebuild_remap" (bit 0 1); I "in_failed_array" (bit 0 2); I "in_crit_array" (bit 0 3);
    I "cons_chk" (bit 0 4); I "hot_spare" (bit 0 5); I "rsvd_device" (bit 0 6); I "ok" (bit 0 7)] ++ slot_fields)%list.
(** enclosure_status.py:62-75. *)
Definition power_supply_fields : list field :=
  [I "ident" (bit 0 7); I "dc_over_current" (bit 1 1); I "dc_under_voltage" (bit 1 2); I "dc_over_voltage" (bit 1 3);
   I "dc_fail" (bit 2 0); I "ac_fail" (bit 2 1); I "temp_warn" (bit 2 2); I "overtmp_fail" (bit 2 3); I "off" (bit 2 4);
   I "reqstd_on" (bit 2 5); I "fail" (bit 2 6); I "hot_swap" (bit 2 7)].
(** enclosure_status.py:89-98. *)
Definition cooling_fields : list field :=
  [I "fan_speed" (sum_of [bits_of 0 0 3; byte_of 1]); I "ident" (bit 0 7); I "speed_code" (bits_of 2 0 3); I "off" (bit 2 4);
   I "reqstd_on" (bit 2 5); I "fail" (bit 2 6); I "hot_swap" (bit 2 7)].
(** Two bits that most classes have, e.g. enclosure_status.py:104-105. *)
Definition fail_ident : list field := [I "fail" (bit 0 6); I "ident" (bit 0 7)].
(** enclosure_status.py:102-110. *)
Definition temp_sensor_fields : list field :=
  (fail_ident ++ [I "temperature" (byte_of 1); I "ut_warn" (bit 2 0); I "ut_fail" (bit 2 1); I "ot_warn" (bit 2 2);
                  I "ot_fail" (bit 2 3)])%list.
(** enclosure_status.py:114-119. *)
Definition door_fields : list field := (fail_ident ++ [I "unlocked" (bit 2 0); I "door_open" (bit 2 1)])%list.
(** enclosure_status.py:123-133. *)
Definition audible_alarm_fields : list field :=
  (fail_ident ++ [I "tui_unrecov" (bit 2 0); I "tui_crit" (bit 2 1); I "tui_non_crit" (bit 2 2); I "tui_info" (bit 2 3);
                  I "remind" (bit 2 4); I "muted" (bit 2 6); I "rqst_mute" (bit 2 7)])%list.
(** enclosure_status.py:137-142. *)
Definition services_controller_fields : list field := (fail_ident ++ [I "report" (bit 1 0); I "hot_swap" (bit 2 7)])%list.
(** enclosure_status.py:146-150. *)
Definition scc_controller_fields : list field := (fail_ident ++ [I "report" (bit 1 0)])%list.
(** enclosure_status.py:154-159. *)
Definition cache_fields : list field :=
  (I "size_mult" (bits_of 0 0 2) :: fail_ident ++ [I "cache_size" (bytes_of 1 3)])%list.
(** enclosure_status.py:163-166. *)
Definition invalid_op_fields : list field := [I "invop_type" (bits_of 0 6 8); I "invop_bytes" (bytes_of 1 3)].
(** enclosure_status.py:170-184. *)
Definition ups_fields : list field :=
  [I "battery_status" (byte_of 0); I "intf_fail" (bit 1 0); I "warn" (bit 1 1); I "ups_fail" (bit 1 2); I "dc_fail" (bit 1 3);
   I "ac_fail" (bit 1 4); I "ac_qual" (bit 1 5); I "ac_hi" (bit 1 6); I "ac_low" (bit 1 7); I "bpf" (bit 2 0);
   I "batt_fail" (bit 2 1); I "fail" (bit 2 6); I "ident" (bit 2 7)].
(** enclosure_status.py:188-193. *)
Definition display_fields : list field :=
  (I "display_mode_status" (bits_of 0 0 2) :: fail_ident ++ [I "display_char_status" (bytes_of 1 3)])%list.
(** enclosure_status.py:197-200. *)
Definition keypad_fields : list field := fail_ident.
(** enclosure_status.py:204-212. *)
Definition enclosure_fields : list field :=
  [I "ident" (bit 0 7); I "warn_indication" (bit 1 0); I "failure_indication" (bit 1 1);
   I "time_until_power_cycle" (bits_of 1 2 8); I "warn_requested" (bit 1 0); I "failure_requested" (bit 1 1);
   I "requested_power_off_duration" (bits_of 1 2 8)].
(** enclosure_status.py:216-223. *)
Definition transceiver_fields : list field :=
  (fail_ident ++ [I "report" (bit 1 0); I "xmit_fail" (bit 2 0); I "lol" (bit 2 1); I "disabled" (bit 2 4)])%list.
(** enclosure_status.py:227-230. *)
Definition language_fields : list field := [I "ident" (bit 0 7); I "language_code" (bytes_of 1 3)].
(** enclosure_status.py:234-238. *)
Definition communication_port_fields : list field := (fail_ident ++ [I "disabled" (bit 2 0)])%list.
(** enclosure_status.py:242-250. *)
Definition voltage_sensor_fields : list field :=
  ([I "crit_under" (bit 0 0); I "crit_over" (bit 0 1); I "warn_under" (bit 0 2); I "warn_over" (bit 0 3)] ++ fail_ident ++
   [I "voltage" (bytes_of 1 3)])%list.
(** enclosure_status.py:254-260. *)
Definition current_sensor_fields : list field :=
  ([I "crit_over" (bit 0 1); I "warn_over" (bit 0 3)] ++ fail_ident ++ [I "current" (bytes_of 1 3)])%list.
(** enclosure_status.py:264-269, 273-278. *)
Definition port_fields : list field := (fail_ident ++ [I "report" (bit 1 0); I "enabled" (bit 2 0)])%list.
(** enclosure_status.py:282-286. *)
Definition subenclosure_fields : list field := (fail_ident ++ [I "short_enclosure_status" (byte_of 2)])%list.
(** enclosure_status.py:290-293. *)
Definition sas_expander_fields : list field := fail_ident.
(** enclosure_status.py:297-302. *)
Definition sas_connector_fields : list field :=
  [I "connector_type" (bits_of 0 0 7); I "ident" (bit 0 7); I "connector_phys_link" (byte_of 1); I "fail" (bit 2 6)].

(** BaseStatusElement, enclosure_status.py:317-322. *)
Definition base_status_fields : list field :=
  [I "element_status_code" (bits_of 0 0 4); I "swap" (bit 0 4); I "disabled" (bit 0 5); I "prdfail" (bit 0 6)].
(** The subclasses, e.g. enclosure_status.py:331-332. *)
Definition status_class (name : string) (info : pyclass) : pyclass :=
  PyClass name (map reader_of base_status_fields ++ [("status_info", r_obj info 1 (upto 4))])%list.
(** As above: enclosure_status.py:331-332. *)
Definition status_numbers (name info : string) (fs : list field) : pyclass := status_class name (buffer_class info fs).
(** GeneralStatusElement and VendorSpecificElement, enclosure_status.py:325-328. *)
Definition general_status : pyclass := status_class "GeneralStatusElement" general_info.

(** ELEMENT_TYPE_TO_ELEMENT_INFO and _unpack_status_element, enclosure_status.py:331-457, 461-466. *)
Definition element_class (element_type : Z) : pyclass :=
  match element_type with
  | 0 => general_status
  | 1 => status_numbers "DeviceSlotStatusElement" "DeviceSlotElementInfo" device_slot_fields
  | 2 => status_numbers "PowerSupplyStatusElement" "PowerSupplyElementInfo" power_supply_fields
  | 3 => status_numbers "CoolingStatusElement" "CoolingElementInfo" cooling_fields
  | 4 => status_numbers "TempSensorStatusElement" "TempSensorElementInfo" temp_sensor_fields
  | 5 => status_numbers "DoorElementStatusElement" "DoorElementInfo" door_fields
  | 6 => status_numbers "AudibleAlarmStatusElement" "AudibleAlarmElementInfo" audible_alarm_fields
  | 7 => status_numbers "EnclosureServiceControllerStatusElement" "EnclosureServiceControllerElementInfo"
           services_controller_fields
  | 8 => status_numbers "SccControllerStatusElement" "SccControllerElementInfo" scc_controller_fields
  | 9 => status_numbers "NonVolotileCacheStatusElement" "NonVolotileCacheElementInfo" cache_fields
  | 10 => status_numbers "InvalidOpReasonStatusElement" "InvalidOpReasonElementInfo" invalid_op_fields
  | 11 => status_numbers "UninterruptiblePowerSupplyStatusElement" "UninterruptiblePowerSupplyElementInfo" ups_fields
  | 12 => status_numbers "DisplayStatusElement" "DisplayElementInfo" display_fields
  | 13 => status_numbers "KeypadStatusElement" "KeypadElementInfo" keypad_fields
  | 14 => status_numbers "EnclosureStatusElement" "EnclosureElementInfo" enclosure_fields
  | 15 => status_numbers "ScsiPortTransceiverStatusElement" "ScsiPortTransceiverElementInfo" transceiver_fields
  | 16 => status_numbers "LanguageStatusElement" "LanguageElementInfo" language_fields
  | 17 => status_numbers "CommunicationPortStatusElement" "CommunicationPortElementInfo" communication_port_fields
  | 18 => status_numbers "VoltageSensorStatusElement" "VoltageSensorElementInfo" voltage_sensor_fields
  | 19 => status_numbers "CurrentSensorStatusElement" "CurrentSensorElementInfo" current_sensor_fields
  | 20 => status_numbers "ScsiTargetPortStatusElement" "ScsiTargetPortElementInfo" port_fields
  | 21 => status_numbers "ScsiInitiatorPortStatusElement" "ScsiInitiatorPortElementInfo" port_fields
  | 22 => status_numbers "SimpleSubenclosureStatusElement" "SimpleSubenclosureElementInfo" subenclosure_fields
  | 23 => status_numbers "ArrayDeviceSlotStatusElement" "ArrayDeviceSlotElementInfo" array_device_slot_fields
  | 24 => status_numbers "SasExpanderStatusElement" "SasExpanderElementInfo" sas_expander_fields
  | 25 => status_numbers "SasConnectorStatusElement" "SasConnectorElementInfo" sas_connector_fields
  | _ => general_status
  end.

(** StatusDescriptor, enclosure_status.py:460-478, unpacked with the type descriptor header [h]. *)
Definition status_descriptor (h : pyval) : element := fun buf =>
  do element_type <- obj_int "element_type" h;
  do n <- obj_int "possible_elements_num" h;
  do overall <- unpack general_status (slice 0 4 buf);
  do (elements, k) <- list_n (elem_obj (element_class element_type) 4) (Z.to_nat n) (skipn 4 buf);
  Ok (PObj "StatusDescriptor"
        [("type_descriptor_header", h); ("overall_element", overall); ("individual_elements", PList elements)], (4 + k)%nat).

(** One element per type descriptor header of the configuration page: the list fields of
    enclosure_status.py:499-501 with 483-489 and element_descriptor.py:36-38 with 25-31. *)
Fixpoint per_header (one : pyval -> element) (headers : list pyval) (buf : bytes) : result (list pyval) :=
  match headers with
  | [] => Ok []
  | h :: r => do (v, k) <- one h buf;
              do vs <- per_header one r (skipn k buf);
              Ok (v :: vs)
  end.
(** [self.conf_page.type_descriptor_header_list], enclosure_status.py:489. *)
Definition header_list (conf_page : pyval) : result (list pyval) :=
  do v <- obj_attr "type_descriptor_header_list" conf_page; match v with PList l => Ok l | _ => Err EType end.

(** EnclosureStatusDiagnosticPagesData, enclosure_status.py:482-501. *)
Definition status_page_fields : list field :=
  [I "page_code" (byte_of 0); I "unrecov" (bit 1 0); I "crit" (bit 1 1); I "non_crit" (bit 1 2); I "info" (bit 1 3);
   I "invop" (bit 1 4); I "page_length" (bytes_of 2 4); I "generation_code" (bytes_of 4 8)].
(** As above: enclosure_status.py:482-501. *)
Definition enclosure_status (conf_page : pyval) (buf : bytes) : result pyval :=
  do got <- unpack_fields (map reader_of status_page_fields) [] buf;
  do headers <- header_list conf_page;
  do l <- per_header status_descriptor headers (skipn 8 buf);
  Ok (PObj "EnclosureStatusDiagnosticPagesData" (got ++ [("status_descriptors", PList l)])%list).

(** * configuration.py *)

(** EnclosureDescriptor, configuration.py:65-76. *)
Definition enclosure_descriptor : pyclass :=
  PyClass "EnclosureDescriptor"
    (map reader_of
       [I "enclosure_services_processes_num" (bits_of 0 0 3); I "relative_enclosure_services_process_identifier" (bits_of 0 4 7);
        I "subenclosure_identifier" (byte_of 1); I "type_descriptor_headers_num" (byte_of 2);
        U "enclosure_descriptor_length" (byte_of 3)] ++
     [("enclosure_logical_identifier", r_bytes 4 (upto 12)); ("enclosure_vendor_identification", r_str 12 (upto 20));
      ("product_identification", r_str 20 (upto 36)); ("product_revision_level", r_str 36 (upto 40));
      ("vendor_specific_enclosure_information", r_bytes 40 (plus "enclosure_descriptor_length" 4))])%list.
(** An element of enclosure_descriptor_list: it takes the bytes up to the end of its last field.
    [configuration.py:98-100] *)
Definition enclosure_element : element := fun buf =>
  do v <- unpack enclosure_descriptor buf;
  do n <- obj_int "enclosure_descriptor_length" v;
  Ok (v, Nat.max 40 (Z.to_nat (n + 4))).

(** TypeDescriptorHeader, configuration.py:79-83. *)
Definition type_descriptor_header : pyclass :=
  buffer_class "TypeDescriptorHeader"
    [U "element_type" (byte_of 0); I "possible_elements_num" (byte_of 1); I "subenclosure_identifier" (byte_of 2);
     I "type_descriptor_text_length" (byte_of 3)].

(** _calc_num_type_descriptor_headers, configuration.py:87-88. *)
Fixpoint sum_headers (l : list pyval) : result Z :=
  match l with
  | [] => Ok 0
  | d :: r => do n <- obj_int "type_descriptor_headers_num" d; do m <- sum_headers r; Ok (n + m)
  end.
(** _unpack_type_descriptor_text, configuration.py:90-92, for each header in turn (the list has
    as many texts as there are headers, configuration.py:101-107).  A negative length is handed
    to the library as the end of a slice; what comes out is left open: [negative]. *)
Definition text_element (negative : Z -> element) (h : pyval) : element := fun buf =>
  do l <- obj_int "type_descriptor_text_length" h;
  if l <? 0 then negative l buf else Ok (PBytes (slice 0 (Z.to_nat l) buf), Z.to_nat l).

(** ConfigurationDiagnosticPagesData, configuration.py:86-107.  A negative count gives an
    empty list. *)
Definition configuration_fields : list field :=
  [I "page_code" (byte_of 0); I "secondary_subenclosures_num" (byte_of 1); I "page_length" (bytes_of 2 4);
   I "generation_code" (bytes_of 4 8)].
(** As above: configuration.py:86-107. *)
Definition configuration (negative : Z -> element) (buf : bytes) : result pyval :=
  do got <- unpack_fields (map reader_of configuration_fields) [] buf;
  do (enclosures, k) <- list_n enclosure_element (Z.to_nat (int_attr "secondary_subenclosures_num" got + 1)) (skipn 8 buf);
  do n <- sum_headers enclosures;
  do (headers, j) <- list_n (elem_obj type_descriptor_header 4) (Z.to_nat n) (skipn (8 + k) buf);
  do texts <- per_header (text_element negative) headers (skipn (8 + k + j) buf);
  Ok (PObj "ConfigurationDiagnosticPagesData"
        (got ++ [("enclosure_descriptor_list", PList enclosures); ("type_descriptor_header_list", PList headers);
                 ("type_descriptor_text_list", PList texts)])%list).

(** * element_descriptor.py *)

(** Descriptor, element_descriptor.py:5-7.  With a negative length the text is empty. *)
Definition descriptor : pyclass :=
  PyClass "Descriptor" [("descriptor_length", r_sint (bytes_of 2 4)); ("descriptor", r_bytes 4 (plus "descriptor_length" 4))].
(** As above: element_descriptor.py:5-7. *)
Definition descriptor_element : element := fun buf =>
  do v <- unpack descriptor buf;
  do n <- obj_int "descriptor_length" v;
  Ok (v, Nat.max 4 (Z.to_nat (n + 4))).
(** ElementDescriptor, element_descriptor.py:10-20, unpacked with the type descriptor header [h]. *)
Definition element_descriptor (h : pyval) : element := fun buf =>
  do n <- obj_int "possible_elements_num" h;
  do (overall, j) <- descriptor_element buf;
  do (elements, k) <- list_n descriptor_element (Z.to_nat n) (skipn j buf);
  Ok (PObj "ElementDescriptor"
        [("type_descriptor_header", h); ("overall_element", overall); ("individual_elements", PList elements)], (j + k)%nat).
(** ElementDescriptorDiagnosticPagesData, element_descriptor.py:24-38. *)
Definition descriptor_page_fields : list field :=
  [I "page_code" (byte_of 0); I "page_length" (bytes_of 2 4); I "generation_code" (bytes_of 4 8)].
(** As above: element_descriptor.py:24-38. *)
Definition element_descriptors (conf_page : pyval) (buf : bytes) : result pyval :=
  do got <- unpack_fields (map reader_of descriptor_page_fields) [] buf;
  do headers <- header_list conf_page;
  do l <- per_header element_descriptor headers (skipn 8 buf);
  Ok (PObj "ElementDescriptorDiagnosticPagesData" (got ++ [("element_descriptors", PList l)])%list).

(** * supported_pages.py, vendor_0x80.py, unknown.py *)

(** SupportedDiagnosticPagesData, supported_pages.py:6-9; Vendor0x80DiagnosticPagesData,
    vendor_0x80.py:5-8. *)
Definition supported_diagnostic_pages : pyclass :=
  PyClass "SupportedDiagnosticPagesData"
    [("page_code", r_sint (bytes_of 0 1)); ("page_length", r_sint (bytes_of 2 4)); ("supported_pages", r_list (elem_uint 1) 4 to_end)].
(** As above: supported_pages.py:6-9; vendor_0x80.py:5-8. *)
Definition vendor_0x80_page : pyclass :=
  PyClass "Vendor0x80DiagnosticPagesData"
    [("page_code", r_sint (bytes_of 0 1)); ("page_length", r_sint (bytes_of 2 4)); ("vendor_specific", r_list (elem_uint 1) 4 to_end)].
(** UnknownDiagnosticPageData, unknown.py:5-7: page_data is one number. *)
Definition unknown_diagnostic_page : pyclass :=
  PyClass "UnknownDiagnosticPageData"
    [("page_code", r_sint (bytes_of 0 1)); ("page_data", fun got buf => r_sint (bytes_of 1 (length buf)) got buf)].

(** * __init__.py *)

(** What the library does where the model leaves it open: a slice with a negative end
    (configuration.py:92) and the keyword conf_page given to the constructor of a plain
    Buffer (diagnostic/__init__.py:24 with unknown.py:5). *)
Record library := Library { negative_slice : Z -> element; plain_keyword : result unit }.

(** SUPPORTED_SES_PAGES_DATA and get_ses_page_data, __init__.py:40-46, 53-54: an object of the
    class, made with the argument [conf_page] (diagnostic/__init__.py:24), and its method unpack. *)
Definition get_ses_page_data (lib : library) (page_code : Z) (conf_page : pyval) (buf : bytes) : result pyval :=
  match page_code with
  | 0 => unpack supported_diagnostic_pages buf
  | 1 => configuration (negative_slice lib) buf
  | 2 => enclosure_status conf_page buf
  | 7 => element_descriptors conf_page buf
  | 128 => unpack vendor_0x80_page buf
  | _ => do _ <- plain_keyword lib; unpack unknown_diagnostic_page buf
  end.

(** The command classes, supported_pages.py:13-15, configuration.py:110-112,
    enclosure_status.py:504-506, element_descriptor.py:41-43, vendor_0x80.py:11-13,
    unknown.py:10-14; SUPPORTED_SES_PAGES_COMMANDS and get_ses_page, __init__.py:32-38, 49-50:
    the class for the page, called with the arguments [args].  Two classes take the
    configuration page, the others nothing. *)
Definition get_ses_page (lib : library) (page_code : Z) (args : list pyval) : result cdb_object :=
  let make allocation_length conf :=
    receive_diagnostic page_code allocation_length (get_ses_page_data lib page_code conf) in
  match page_code, args with
  | 0, [] => make 255 PNone
  | 1, [] => make 65535 PNone
  | 2, [conf] => make 65535 conf
  | 7, [conf] => make 65535 conf
  | 128, [] => make 255 PNone
  | 2, _ => Err EType
  | 7, _ => Err EType
  | _, [] => make 2048 PNone
  | _, _ => Err EType
  end.
