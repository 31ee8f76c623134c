(** The remaining commands of src/infi/asi/cdb (line numbers refer to the files named;
    default values of constructor arguments are not modelled). *)
From Coq Require Import String ZArith List Bool.
From Verif Require Import Base OsCommon Instruct Command.
Import ListNotations.
Local Open Scope string_scope.
Local Open Scope Z_scope.

(** * tur.py *)

(** TestUnitReadyCommand, tur.py:11-21: yields True whatever the result is. *)
Definition tur_fields : list item := [opcode 0; Padding 4; control].
(** As above: tur.py:11-21. *)
Definition test_unit_ready : result cdb_object :=
  Ok (CdbObject [] (pack_struct tur_fields) (fun _ cdb => ReadCmd cdb 0) (fun _ _ => Ok (PBool true))).

(** [executer.call(SCSIReadCommand(datagram, self.allocation_length))], e.g. log_sense.py:29. *)
Definition allocated (a : attributes) (cdb : bytes) : scsi_command := ReadCmd cdb (attr "allocation_length" a).

(** * report_luns.py *)

(** ReportLunsCommand._fields_, report_luns.py:25-33. *)
Definition report_luns_fields : list item :=
  [opcode 160; Padding 1; UBInt 1 "select_report" Required; Padding 3;
   UBInt 4 "allocation_length" Required; Padding 1; control].

(** ReportLunsData, report_luns.py:55-60: the SumSizeArray reads 8-byte numbers until they
    make up lun_list_length bytes.  A length that is no multiple of 8, or data that end
    too early, raise. *)
Fixpoint uint64s (n : nat) (buf : bytes) : list Z :=
  match n with
  | O => []
  | S m => be_val (slice 0 8 buf) :: uint64s m (skipn 8 buf)
  end.
(** As above: report_luns.py:55-60. *)
Definition report_luns_data (buf : bytes) : result (list Z) :=
  if (length buf <? 8)%nat then Err EInstruct
  else
    let lun_list_length := be_val (slice 0 4 buf) in
    if negb (lun_list_length mod 8 =? 0) then Err EInstruct
    else if zlen buf <? 8 + lun_list_length then Err EInstruct
    else Ok (uint64s (Z.to_nat (lun_list_length / 8)) (skipn 8 buf)).

(** _raise_if_unsupported_lun_addressing_format, report_luns.py:62-66. *)
Definition check_lun (item : Z) : result unit :=
  if negb (Z.land item 281474976710655 =? 0) then Err (EUnsupportedLunAddressing item)
  else if negb (Z.land item 13835058055282163712 =? 0) then Err (EUnsupportedLunMethod item)
  else Ok tt.
(** As above: report_luns.py:62-66. *)
Fixpoint check_luns (l : list Z) : result unit :=
  match l with [] => Ok tt | x :: r => do _ <- check_lun x; check_luns r end.

(** normalize_lun_list, report_luns.py:68-72. *)
Definition normalize_luns (allow : bool) (l : list Z) : result (list Z) :=
  do _ <- (if allow then Ok tt else check_luns l);
  Ok (map (fun item => Z.shiftr item 48) l).

(** ReportLunsCommand.execute, report_luns.py:39-47.  The text hex(lun) is represented by
    the number itself. *)
Definition report_luns_finish (allow : bool) (a : attributes) (d : option bytes) : result pyval :=
  let allocation_length := attr "allocation_length" a in
  if 16 <=? allocation_length then
    match d with
    | None => Err EInstruct
    | Some b =>
      do luns <- report_luns_data b;
      do l <- normalize_luns allow luns;
      Ok (PObj "ReportLunsData"
            [("lun_list_length", PInt (be_val (slice 0 4 b)));
             ("lun_list", PList (map PInt l)); ("hex_lun_list", PList (map PInt luns))])
    end
  else
    do _ <- assert_ ((match d with None => 0 | Some b => zlen b end) =? allocation_length);
    raw_result a d.

(** ReportLunsCommand.__init__, report_luns.py:49-52. *)
Definition report_luns (select_report allocation_length : Z) (allow : bool) : result cdb_object :=
  Ok (CdbObject [("select_report", select_report); ("allocation_length", allocation_length)]
        (pack_struct report_luns_fields) allocated (report_luns_finish allow)).

(** * rtpg.py *)

(** RTPGCommand._fields_, rtpg.py:27-37. *)
Definition rtpg_fields : list item :=
  [opcode 163; BitFields [BitField "service_action" 5 (Default 10); BitField "parameter_data_format" 3 (Default 0)];
   Padding 4; UBInt 4 "allocation_length" Required; Padding 1; control].

(** TargetPortDescriptor, rtpg.py:56-58. *)
Definition target_port_descriptor : pyclass :=
  PyClass "TargetPortDescriptor" [("relative_target_port_identifier", r_uint (bytes_of 2 4))].

(** A list_field with n: reads exactly n elements from the bytes at [a] to [b]. [e.g. cdb/rtpg.py:77] *)
Definition r_list_n (one : element) (a : nat) (b : attrs -> bytes -> Z) (n : attrs -> bytes -> Z) : reader :=
  fun got buf => do (l, _) <- list_n one (Z.to_nat (n got buf)) (slice a (Z.to_nat (b got buf)) buf); Ok (PList l).
(** A list_field without n. [e.g. cdb/rtpg.py:81] *)
Definition r_list (one : element) (a : nat) (b : attrs -> bytes -> Z) : reader :=
  fun got buf => do l <- read_list one (slice a (Z.to_nat (b got buf)) buf); Ok (PList l).
(** [bytes_ref[a:]]. [e.g. cdb/rtpg.py:77] *)
Definition to_end : attrs -> bytes -> Z := fun _ buf => zlen buf.
(** [bytes_ref[a:b]] with a constant end. [e.g. cdb/rtpg.py:73] *)
Definition upto (b : Z) : attrs -> bytes -> Z := fun _ _ => b.
(** [bytes_ref[a:a+name]]. [e.g. cdb/rtpg.py:81] *)
Definition plus (n : string) (k : Z) : attrs -> bytes -> Z := fun got _ => k + int_attr n got.

(** TargetPortGroupDescriptor, rtpg.py:60-77. *)
Definition target_port_group_descriptor : pyclass :=
  PyClass "TargetPortGroupDescriptor"
    [("asymetric_access_state", r_sint (bits_of 0 0 4));
     ("pref", r_sint (bits_of 0 7 8));
     ("ao_sup", r_sint (bits_of 1 0 1));
     ("an_sup", r_sint (bits_of 1 1 2));
     ("s_sup", r_sint (bits_of 1 2 3));
     ("u_sup", r_sint (bits_of 1 3 4));
     ("lbd_sup", r_sint (bits_of 1 4 5));
     ("o_sup", r_sint (bits_of 1 6 7));
     ("t_sup", r_sint (bits_of 1 7 8));
     ("target_port_group", r_uint (bytes_of 2 4));
     ("status_code", r_sint (byte_of 5));
     ("target_port_count", r_sint (byte_of 7));
     ("target_port_list", r_list_n (elem_obj target_port_descriptor 4) 8 to_end
                            (fun got _ => int_attr "target_port_count" got))].
(** An element of the descriptor lists takes the header and its target ports. [cdb/rtpg.py:81, 86] *)
Definition rtpg_element : element := fun buf =>
  do v <- unpack target_port_group_descriptor buf;
  match v with
  | PObj _ l => Ok (v, (8 + 4 * Z.to_nat (int_attr "target_port_count" l))%nat)
  | _ => Err EFault
  end.

(** TargetPortGroupLengthOnlyResponse, rtpg.py:79-81. *)
Definition rtpg_length_only : pyclass :=
  PyClass "TargetPortGroupLengthOnlyResponse"
    [("data_length", r_sint (bytes_of 0 4)); ("descriptor_list", r_list rtpg_element 4 (plus "data_length" 4))].
(** TargetPortGroupExtendedResponse, rtpg.py:83-86. *)
Definition rtpg_extended : pyclass :=
  PyClass "TargetPortGroupExtendedResponse"
    [("data_length", r_sint (bytes_of 0 4)); ("format_type", r_sint (bits_of 4 4 7));
     ("descriptor_list", r_list rtpg_element 7 (plus "data_length" 7))].

(** RTPGCommand.__init__ and execute, rtpg.py:39-54. *)
Definition rtpg (parameter_data_format allocation_length : Z) : result cdb_object :=
  do _ <- assert_ ((parameter_data_format =? 0) || (parameter_data_format =? 1));
  Ok (CdbObject [("parameter_data_format", parameter_data_format); ("allocation_length", allocation_length)]
        (pack_struct rtpg_fields) allocated
        (fun a d =>
           let f := attr "parameter_data_format" a in
           if f =? 0 then parsed (unpack rtpg_length_only) a d
           else if f =? 1 then parsed (unpack rtpg_extended) a d
           else Err EName)).                     (* UnboundLocalError, a NameError *)

(** * log_sense.py *)

(** LogSenseCommand, log_sense.py:8-30. *)
Definition log_sense_fields : list field :=
  ([uint_field "operation_code" (byte_of 0) (Fixed 77);
   uint_field "sp" (bits_of 1 0 1) Required;
   uint_field "page_code" (bits_of 2 0 6) Required;
   uint_field "pc" (bits_of 2 6 8) Required;
   uint_field "subpage_code" (byte_of 3) Required;
   uint_field "parameter_pointer" (bytes_of 5 7) Required;
   uint_field "allocation_length" (bytes_of 7 9) Required] ++ control_buffer 9 (Fixed 0))%list.
(** As above: log_sense.py:8-30. *)
Definition log_sense (page_code subpage_code allocation_length : Z) : result cdb_object :=
  Ok (CdbObject [("sp", 0); ("pc", 0); ("parameter_pointer", 0); ("page_code", page_code);
                 ("subpage_code", subpage_code); ("allocation_length", allocation_length)]
        (pack_buffer log_sense_fields) allocated raw_result).

(** * receive_copy_operating_parameters.py *)

(** ReceiveCopyOperatingParametersResponse, receive_copy_operating_parameters.py:23-42. *)
Definition receive_copy_response : pyclass :=
  PyClass "ReceiveCopyOperatingParametersResponse"
    [("available_data", r_uint (bytes_of 0 4));
     ("snlid", r_sint (bits_of 4 0 1));
     ("max_cscd_descriptor_count", r_uint (bytes_of 8 10));
     ("max_segment_descriptor_count", r_uint (bytes_of 10 12));
     ("max_descriptor_list_length", r_uint (bytes_of 12 16));
     ("max_segment_length", r_uint (bytes_of 16 20));
     ("max_inline_data_length", r_uint (bytes_of 20 24));
     ("held_data_limit", r_uint (bytes_of 24 28));
     ("max_stream_device_transfer_size", r_uint (bytes_of 28 32));
     ("total_concurrent_copies", r_uint (bytes_of 34 36));
     ("max_concurrent_copies", r_uint (byte_of 36));
     ("data_segment_granularity", r_uint (byte_of 37));
     ("inline_data_granularity", r_uint (byte_of 38));
     ("held_data_granularity", r_uint (byte_of 39));
     ("implemented_descriptor_list_length", r_uint (byte_of 43));
     ("implemented_descriptor_list",
        r_list (elem_uint 1) 44 (plus "implemented_descriptor_list_length" 44))].

(** ReceiveCopyOperatingParametersCommand, receive_copy_operating_parameters.py:8-19. *)
Definition receive_copy_fields : list field :=
  [uint_field "operation_code" (byte_of 0) (Fixed 132);
   uint_field "service_action" (bits_of 1 0 5) (Fixed 3);
   uint_field "allocation_length" (bytes_of 10 14) Required;
   uint_field "control" (byte_of 15) Required].
(** As above: receive_copy_operating_parameters.py:8-19. *)
Definition receive_copy (allocation_length ctl : Z) : result cdb_object :=
  Ok (CdbObject [("allocation_length", allocation_length); ("control", ctl)]
        (pack_buffer receive_copy_fields) allocated (parsed (unpack receive_copy_response))).

(** * diagnostic/__init__.py *)

(** ReceiveDiagnosticResultCommand, diagnostic/__init__.py:9-26, with pcv=1 as the only
    subclass passes it (diagnostic/ses_pages/__init__.py:5-8).  [parse] is the unpack
    method of result_class(conf_page=...). *)
Definition receive_diagnostic_fields : list field :=
  ([int_field "opcode" (byte_of 0) (Fixed 28);
   int_field "pcv" (bits_of 1 0 1) Required;
   uint_field "page_code" (byte_of 2) Required;
   uint_field "allocation_length" (bytes_of 3 5) Required] ++ control_buffer 5 (Fixed 0))%list.
(** As above: diagnostic/__init__.py:9-26; diagnostic/ses_pages/__init__.py:5-8. *)
Definition receive_diagnostic (page_code allocation_length : Z) (parse : bytes -> result pyval) : result cdb_object :=
  Ok (CdbObject [("pcv", 1); ("page_code", page_code); ("allocation_length", allocation_length)]
        (pack_buffer receive_diagnostic_fields) allocated (parsed parse)).

(** * inquiry/__init__.py *)

(** InquiryCommand, inquiry/__init__.py:25-46.  [parse] is result_class().unpack. *)
Definition inquiry_fields : list item :=
  [opcode 18; BitFields [BitFlag "evpd" (Default 0); BitPadding 7]; UBInt 1 "page_code" Required;
   UBInt 2 "allocation_length" Required; control].
(** As above: inquiry/__init__.py:25-46. *)
Definition inquiry (evpd page_code allocation_length : Z) (parse : bytes -> result pyval) : result cdb_object :=
  Ok (CdbObject [("evpd", evpd); ("page_code", page_code); ("allocation_length", allocation_length)]
        (pack_struct inquiry_fields) allocated (parsed parse)).

(** * reserve.py and release.py *)

(** Reserve6Command, reserve.py:11-25. *)
Definition reserve6_fields : list field :=
  ([uint_field "operation_code" (byte_of 0) (Fixed 22);
   uint_field "obsolete_1" (bits_of 1 0 5) (Default 0);
   uint_field "reserved_1" (bits_of 1 5 8) (Default 0);
   uint_field "obsolete_2" (byte_of 2) (Default 0);
   uint_field "obsolete_3" (bytes_of 3 5) (Default 0)] ++ control_buffer 5 (Default 0))%list.
(** As above: reserve.py:11-25. *)
Definition reserve6 : result cdb_object :=
  Ok (CdbObject [] (pack_buffer reserve6_fields) (fun _ cdb => WriteCmd cdb []) raw_result).

(** Release6Command, release.py:10-25. *)
Definition release6_fields : list field :=
  ([uint_field "operation_code" (byte_of 0) (Fixed 23);
   uint_field "obsolete_1" (bits_of 1 0 5) (Default 0);
   uint_field "reserved_1" (bits_of 1 5 8) (Default 0);
   uint_field "obsolete_2" (byte_of 2) (Default 0);
   uint_field "reserved_3" (byte_of 3) (Default 0);
   uint_field "reserved_4" (byte_of 4) (Default 0)] ++ control_buffer 5 (Default 0))%list.
(** As above: release.py:10-25. *)
Definition release6 : result cdb_object :=
  Ok (CdbObject [] (pack_buffer release6_fields) (fun _ cdb => WriteCmd cdb []) raw_result).

(** Fields of Reserve10Command (reserve.py:39-49) and Release10Command (release.py:37-47)
    after operation_code. *)
Definition third_party_fields : list field :=
  ([uint_field "obsolete_1" (bits_of 1 0 1) (Default 0);
   uint_field "long_id" (bits_of 1 1 2) (Default 0);
   uint_field "reserved_1" (bits_of 1 2 4) (Default 0);
   uint_field "third_party" (bits_of 1 4 5) (Default 0);
   uint_field "reserved_2" (bits_of 1 5 8) (Default 0);
   uint_field "obsolete_2" (byte_of 2) (Default 0);
   uint_field "third_party_device_id" (byte_of 3) (Default 0);
   uint_field "reserved_3" (bytes_of 4 7) (Default 0);
   uint_field "parameter_list_length" (bytes_of 7 9) (Default 0)] ++ control_buffer 9 (Default 0))%list.

(** Reserve10ParameterList, reserve.py:28-32; Release10ParameterList, release.py:27-31. *)
Definition long_id_parameters (id : Z) : result bytes :=
  pack_buffer [uint_field "third_party_device_id" (bytes_of 0 8) Required] [("third_party_device_id", id)].

(** The request of execute: bytes(self.parameter_list_datagram) if it is set, otherwise
    nothing (reserve.py:69-71, release.py:69-71). *)
Definition write_request_opt (p : option bytes) (_ : attributes) (cdb : bytes) : scsi_command :=
  WriteCmd cdb (match p with Some b => b | None => [] end).

(** Reserve10Command, reserve.py:39-72: operation_code is a default there. *)
Definition reserve10_fields : list field :=
  uint_field "operation_code" (byte_of 0) (Default 86) :: third_party_fields.
(** As above: reserve.py:39-72. *)
Definition reserve10 (id : Z) : result cdb_object :=
  if 0 <? id then
    if id <? 255 then
      Ok (CdbObject [("third_party", 1); ("third_party_device_id", id); ("long_id", 0); ("parameter_list_length", 0)]
            (pack_buffer reserve10_fields) (write_request_opt None) raw_result)
    else
      do p <- long_id_parameters id;
      Ok (CdbObject [("third_party", 1); ("parameter_list_length", 8); ("long_id", 1)]
            (pack_buffer reserve10_fields) (write_request_opt (Some p)) raw_result)
  else Ok (CdbObject [("third_party", 0)] (pack_buffer reserve10_fields) (write_request_opt None) raw_result).

(** Release10Command, release.py:37-72: parameter_list_length is computed there. *)
Definition release10_fields : list field :=
  uint_field "operation_code" (byte_of 0) (Fixed 87) :: third_party_fields.
(** As above: release.py:37-72. *)
Definition release10 (id : Z) : result cdb_object :=
  if 0 <? id then
    if id <? 255 then
      Ok (CdbObject [("third_party", 1); ("third_party_device_id", id); ("parameter_list_length", 0); ("long_id", 0)]
            (pack_buffer release10_fields) (write_request_opt None) raw_result)
    else
      do p <- long_id_parameters id;
      Ok (CdbObject [("third_party", 1); ("parameter_list_length", zlen p); ("long_id", 1)]
            (pack_buffer release10_fields) (write_request_opt (Some p)) raw_result)
  else Ok (CdbObject [("third_party", 0)] (pack_buffer release10_fields) (write_request_opt None) raw_result).

(** * persist/ *)

(** TransportId, persist/transport.py:6-10. *)
Record transport_id := TransportId { protocol_identifier : Z; format_code : Z; specific_data : bytes }.
(** As above: persist/transport.py:6-10. *)
Definition transport_id_fields : list field :=
  [uint_field "protocol_identifier" (bits_of 0 0 4) (Default 1);
   uint_field "reserved_1" (bits_of 0 4 6) (Fixed 0);
   uint_field "format_code" (bits_of 0 6 8) (Default 0)].
(** As above: persist/transport.py:6-10. *)
Definition pack_transport_id (t : transport_id) : result bytes :=
  do b <- pack_buffer transport_id_fields
            [("protocol_identifier", protocol_identifier t); ("format_code", format_code t)];
  Ok (b ++ specific_data t)%list.
(** As above: persist/transport.py:6-10. *)
Definition transport_id_class : pyclass :=
  PyClass "TransportId"
    [("protocol_identifier", r_uint (bits_of 0 0 4)); ("reserved_1", r_uint (bits_of 0 4 6));
     ("format_code", r_uint (bits_of 0 6 8)); ("specific_data", r_bytes 1 to_end)].

(** PersistentReserveOutCommandBasicParameterList, persist/output.py:37-50. *)
Definition basic_parameter_list_fields : list field :=
  [uint_field "reservation_key" (bytes_of 0 8) Required;
   uint_field "service_action_reservation_key" (bytes_of 8 16) Required;
   uint_field "activate_persist_through_power_loss" (bits_of 20 0 1) (Fixed 0);
   uint_field "obsolete_1" (bytes_of 16 20) (Fixed 0);
   uint_field "all_target_ports" (bits_of 20 2 3) (Default 0);
   uint_field "specify_initiator_ports" (bits_of 20 3 4) (Default 0);
   uint_field "reserved_1" (byte_of 21) (Fixed 0);
   uint_field "obsolete_2" (bytes_of 22 24) (Fixed 0)].

(** PersistentReserveOutCommandRegisterAndMoveParameterList, persist/output.py:52-69. *)
Definition register_and_move_fields : list field :=
  [uint_field "reservation_key" (bytes_of 0 8) Required;
   uint_field "service_action_reservation_key" (bytes_of 8 16) Required;
   uint_field "activate_persist_through_power_loss" (bits_of 17 0 1) (Default 0);
   uint_field "unregister" (bits_of 17 1 2) (Default 0);
   uint_field "relative_target_port_identifier" (bytes_of 18 20) (Default 0);
   uint_field "transport_id_length" (bytes_of 20 24) Required].
(** As above: persist/output.py:52-69. *)
Definition register_and_move_list (keys kw : attributes) (t : transport_id) : result bytes :=
  do tid <- pack_transport_id t;
  do b <- pack_buffer register_and_move_fields (("transport_id_length", zlen tid) :: keys ++ kw)%list;
  Ok (b ++ tid)%list.

(** SERVICE_ACTION_TO_PARAMETER_LIST_CLASS, persist/output.py:111-123. *)
Inductive parameter_list_class := Basic | RegisterAndMove.
(** As above: persist/output.py:111-123. *)
Definition parameter_list_class_of (sa : Z) : option parameter_list_class :=
  match sa with
  | 0 => Some Basic | 1 => Some Basic | 2 => Some Basic | 3 => Some Basic | 4 => Some Basic
  | 5 => Some Basic | 6 => Some Basic | 7 => Some RegisterAndMove | 8 => Some Basic
  | _ => None
  end.

(** PersistentReserveOutCommand, persist/output.py:78-104.  The keyword arguments are the
    flags [kw] and the transport_id; REGISTER AND MOVE requires the transport_id, the
    other actions know no such argument (TypeError). *)
Definition pr_out_fields : list field :=
  ([uint_field "operation_code" (byte_of 0) (Fixed 95);
   uint_field "service_action" (bits_of 1 0 5) Required;
   uint_field "pr_type" (bits_of 2 0 4) Required;
   uint_field "scope" (bits_of 3 4 8) (Fixed 0);
   uint_field "parameter_list_length" (bytes_of 5 9) Required] ++ control_buffer 9 (Fixed 0))%list.
(** As above: persist/output.py:78-104. *)
Definition pr_out (sa key sakey pr_type : Z) (kw : attributes) (t : option transport_id) : result cdb_object :=
  let keys := [("reservation_key", key); ("service_action_reservation_key", sakey)] in
  do p <- match parameter_list_class_of sa, t with
          | None, _ => Err EAssertion
          | Some Basic, None => pack_buffer basic_parameter_list_fields (keys ++ kw)%list
          | Some Basic, Some _ => Err EType
          | Some RegisterAndMove, None => Err EType
          | Some RegisterAndMove, Some t => register_and_move_list keys kw t
          end;
  Ok (CdbObject [("service_action", sa); ("pr_type", pr_type); ("parameter_list_length", zlen p)]
        (pack_buffer pr_out_fields) (fun _ cdb => WriteCmd cdb p) raw_result).

(** PersistentReserveInReadKeysResponse, persist/input.py:21-33. *)
Definition read_keys_response : pyclass :=
  PyClass "PersistentReserveInReadKeysResponse"
    [("pr_generation", r_uint (bytes_of 0 4));
     ("additional_length", r_uint (bytes_of 4 8));
     ("key_list", r_if (fun got buf => int_attr "additional_length" got + 8 <=? zlen buf)
                    (r_list_n (elem_uint 8) 8 (plus "additional_length" 8)
                       (fun got _ => int_attr "additional_length" got / 8)))].

(** [input_buffer_length >= n]. [persist/input.py:33, 47-52] *)
Definition longer (n : Z) : attrs -> bytes -> bool := fun _ buf => n <=? zlen buf.

(** PersistentReserveInReadReservationResponse, persist/input.py:39-52. *)
Definition read_reservation_response : pyclass :=
  PyClass "PersistentReserveInReadReservationResponse"
    [("pr_generation", r_uint (bytes_of 0 4));
     ("additional_length", r_uint (bytes_of 4 8));
     ("reservation_key", r_if (longer 16) (r_uint (bytes_of 8 16)));
     ("obsolete_1", r_if (longer 20) (r_uint (bytes_of 16 20)));
     ("reserved_1", r_if (longer 21) (r_uint (bytes_of 20 21)));
     ("pr_type", r_if (longer 21) (r_uint (bits_of 21 0 4)));
     ("scope", r_if (longer 21) (r_uint (bits_of 21 4 8)));
     ("obsolete_2", r_if (longer 24) (r_uint (bytes_of 22 24)))].

(** PersistentReserveInReportCapabilitiesResponse, persist/input.py:58-83. *)
Definition report_capabilities_response : pyclass :=
  PyClass "PersistentReserveInReportCapabilitiesResponse"
    [("length", r_uint (bytes_of 0 2));
     ("persist_through_power_lost_capable", r_uint (bits_of 2 0 1));
     ("reserved_1", r_uint (bits_of 2 1 2));
     ("all_target_ports_capable", r_uint (bits_of 2 2 3));
     ("specify_initiator_ports_capable", r_uint (bits_of 2 3 4));
     ("compatible_reservation_handling", r_uint (bits_of 2 4 5));
     ("reserved_2", r_uint (bits_of 2 5 7));
     ("replace_lost_reservation_capable", r_uint (bits_of 2 7 8));
     ("persist_through_power_lost_activates", r_uint (bits_of 3 0 1));
     ("reserved_3", r_uint (bits_of 3 1 4));
     ("allow_commands", r_uint (bits_of 3 4 7));
     ("type_mask_valid", r_uint (bits_of 3 7 8));
     ("write_exclusive", r_uint (bits_of 4 1 2));
     ("exclusive_access", r_uint (bits_of 4 3 4));
     ("write_exclusive_registrants_only", r_uint (bits_of 4 5 6));
     ("exclusive_access_registrants_only", r_uint (bits_of 4 6 7));
     ("write_exclusive_all_registrants", r_uint (bits_of 4 7 8));
     ("exclusive_access_all_registrants", r_uint (bits_of 5 0 1));
     ("reserved_4", r_uint (bytes_of 6 8))].

(** PersistentReserveInReadFullStatusDescriptor, persist/input.py:89-103. *)
Definition full_status_descriptor : pyclass :=
  PyClass "PersistentReserveInReadFullStatusDescriptor"
    [("reservation_key", r_uint (bytes_of 0 8));
     ("reservation_holder", r_uint (bits_of 12 0 1));
     ("all_target_ports", r_uint (bits_of 12 1 2));
     ("pr_type", r_uint (bits_of 13 0 4));
     ("scope", r_uint (bits_of 13 4 8));
     ("relative_target_port_identifier", r_uint (bytes_of 18 20));
     ("additional_length", r_uint (bytes_of 20 24));
     ("transport_id", r_obj transport_id_class 24 (plus "additional_length" 24))].
(** An element of the descriptor list takes its header and its TransportID. [persist/input.py:66-117] *)
Definition full_status_element : element := fun buf =>
  do v <- unpack full_status_descriptor buf;
  match v with
  | PObj _ l => Ok (v, (24 + Z.to_nat (int_attr "additional_length" l))%nat)
  | _ => Err EFault
  end.

(** PersistentReserveInReadFullStatusResponse, persist/input.py:106-117. *)
Definition full_status_response : pyclass :=
  PyClass "PersistentReserveInReadFullStatusResponse"
    [("pr_generation", r_uint (bytes_of 0 4));
     ("additional_length", r_uint (bytes_of 4 8));
     ("full_status_descriptors", r_if (fun got _ => 0 <? int_attr "additional_length" got)
                                   (r_list full_status_element 8 (plus "additional_length" 8)))].

(** required_allocation_length of the four classes, persist/input.py:35-36, 54-55, 85-86,
    119-120 (the last one names an undefined variable). *)
Definition required_allocation_length (o : pyval) : result Z :=
  match o with
  | PObj c l =>
    if String.eqb c "PersistentReserveInReadKeysResponse" then Ok (int_attr "additional_length" l + 8)
    else if String.eqb c "PersistentReserveInReadReservationResponse" then Ok (int_attr "additional_length" l + 8)
    else if String.eqb c "PersistentReserveInReportCapabilitiesResponse" then Ok 8
    else if String.eqb c "PersistentReserveInReadFullStatusResponse" then Err EName
    else Err EAttribute
  | _ => Err EAttribute
  end.

(** SERVICE_ACTION_TO_RESPONSE_BUFFER_CLASS, persist/input.py:157-162. *)
Definition pr_in_response (sa : Z) : option pyclass :=
  match sa with
  | 0 => Some read_keys_response
  | 1 => Some read_reservation_response
  | 2 => Some report_capabilities_response
  | 3 => Some full_status_response
  | _ => None
  end.

(** PersistentReserveInCommand, persist/input.py:128-151. *)
Definition pr_in_fields : list field :=
  ([uint_field "operation_code" (byte_of 0) (Fixed 94);
   uint_field "service_action" (bits_of 1 0 5) Required;
   uint_field "allocation_length" (bytes_of 7 9) Required] ++ control_buffer 9 (Fixed 0))%list.
(** As above: persist/input.py:128-151. *)
Definition pr_in (sa allocation_length : Z) : result cdb_object :=
  do _ <- assert_ (8 <=? allocation_length);
  Ok (CdbObject [("service_action", sa); ("allocation_length", allocation_length)]
        (pack_buffer pr_in_fields) allocated
        (fun a d => match pr_in_response (attr "service_action" a) with
                    | None => Err EAssertion
                    | Some c => parsed (unpack c) a d
                    end)).
