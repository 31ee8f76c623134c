(** Properties C49 (pages of INQUIRY and other parameter data), C50 to C54 and C61 (VPD pages). *)
From Coq Require Import String ZArith List Bool Lia.
From Verif Require Import Base OsCommon Instruct Command CdbPrimary SpecDevice Pages SpecLayout SpecPages SpecVpd SpecPack
  DesignatorFacts VpdFacts PackFacts InquiryFacts.
Import ListNotations.
Local Open Scope string_scope.
Local Open Scope Z_scope.

(** ** C49: each number comes from the place the standard gives (the layouts of SpecPages.v);
    data that is too short is refused *)

Theorem C49_block_limits : forall buf, bytes_ok buf ->
  unpack block_limits buf =
  if (44 <=? length buf)%nat
  then Ok (PObj "BlockLimitsVPDPageBuffer" (peripheral_value buf :: layout_values block_limits_layout buf)) else Err EInstruct.
Proof. exact block_limits_spec. Qed.
Theorem C49_veritas : forall buf, bytes_ok buf ->
  unpack veritas buf =
  if (6 <=? length buf)%nat
  then Ok (PObj "VeritasVPDPageBuffer" (peripheral_value buf :: layout_values veritas_layout buf)) else Err EInstruct.
Proof. exact veritas_spec. Qed.
Theorem C49_provisioning : forall buf, bytes_ok buf -> (length buf <= 8)%nat ->
  unpack logical_block_provisioning buf =
  if (7 <=? length buf)%nat
  then Ok (PObj "LogicalBlockProvisioningVPDPageBuffer"
             (peripheral_value buf :: layout_values provisioning_layout buf ++ [("provisioning_group_descriptor", PNone)])%list)
  else Err EInstruct.
Proof. exact provisioning_short. Qed.
(** With a provisioning group descriptor. *)
Theorem C49_provisioning_group : forall head d rest, bytes_ok head -> length head = 8%nat -> designator_ok d -> bytes_ok rest ->
  let buf := (head ++ descriptor_bytes d ++ rest)%list in
  unpack logical_block_provisioning buf =
  Ok (PObj "LogicalBlockProvisioningVPDPageBuffer"
        (peripheral_value buf :: layout_values provisioning_layout buf ++
         [("provisioning_group_descriptor", designator_object d)])%list).
Proof. exact provisioning_long. Qed.
Theorem C49_standard_inquiry : forall buf, bytes_ok buf ->
  unpack standard_inquiry_data buf = if (8 <=? length buf)%nat then Ok (standard_inquiry_object buf) else Err EInstruct.
Proof. exact standard_inquiry_spec. Qed.
Theorem C49_receive_copy : forall buf, bytes_ok buf ->
  unpack receive_copy_response buf =
  if (44 <=? length buf)%nat
  then Ok (PObj "ReceiveCopyOperatingParametersResponse"
             (layout_values receive_copy_layout buf ++
              [("implemented_descriptor_list", PList (map PInt (slice 44 (44 + Z.to_nat (ub 43 44 buf)) buf)))])%list)
  else Err EInstruct.
Proof. exact receive_copy_response_spec. Qed.
Theorem C49_report_capabilities : forall buf, bytes_ok buf ->
  unpack report_capabilities_response buf =
  if (8 <=? length buf)%nat
  then Ok (PObj "PersistentReserveInReportCapabilitiesResponse" (layout_values report_capabilities_layout buf)) else Err EInstruct.
Proof. exact report_capabilities_response_spec. Qed.

Example C49_block_limits_example :
  unpack block_limits ([0; 176; 0; 60; 1; 64; 0; 8] ++ be_bytes 4 65536 ++ be_bytes 4 256 ++ be_bytes 4 0 ++ be_bytes 4 8388608 ++
                       be_bytes 4 4096 ++ be_bytes 4 2048 ++ be_bytes 4 (2 ^ 31 + 16) ++ be_bytes 8 (2 ^ 40))%list =
  Ok (PObj "BlockLimitsVPDPageBuffer"
        [("peripheral_device", PObj "PeripheralDeviceDataBuffer" [("type", PInt 0); ("qualifier", PInt 0)]);
         ("page_code", PInt 176); ("page_length", PInt 60); ("wsnz", PInt 1); ("maximum_compare_and_write_length", PInt 64);
         ("optimal_transfer_length_granularity", PInt 8); ("maximum_transfer_length", PInt 65536);
         ("optimal_transfer_length", PInt 256); ("maximum_prefetch_xdread_xdwrite_transfer_length", PInt 0);
         ("maximum_unmap_lba_count", PInt 8388608); ("maximum_unmap_block_descriptor_count", PInt 4096);
         ("optimal_unmap_granularity", PInt 2048); ("unmap_granularity_alignment", PInt 16); ("ugavalid", PInt 1);
         ("maximum_write_same_length", PInt (2 ^ 40))]).
Proof. vm_compute. reflexivity. Qed.
Example C49_veritas_example :
  unpack veritas [0; 192; 0; 2; 33; 5] =
  Ok (PObj "VeritasVPDPageBuffer"
        [("peripheral_device", PObj "PeripheralDeviceDataBuffer" [("type", PInt 0); ("qualifier", PInt 0)]);
         ("page_code", PInt 192); ("page_length", PInt 2); ("is_thin_lun", PInt 1); ("is_snapshot_lun", PInt 0);
         ("is_space_optimized_src", PInt 0); ("is_fcdisk_lun", PInt 0); ("is_satadisk_lun", PInt 0);
         ("is_replication_src", PInt 1); ("is_replication_dst", PInt 0); ("raid_type", PInt 5)]).
Proof. reflexivity. Qed.
Example C49_provisioning_example :
  unpack logical_block_provisioning [0; 178; 0; 4; 11; 224; 2; 0] =
  Ok (PObj "LogicalBlockProvisioningVPDPageBuffer"
        [("peripheral_device", PObj "PeripheralDeviceDataBuffer" [("type", PInt 0); ("qualifier", PInt 0)]);
         ("page_code", PInt 178); ("page_length", PInt 4); ("threshold_exponent", PInt 11); ("dp", PInt 0); ("anc_sup", PInt 0);
         ("lbprz", PInt 0); ("lbpws10", PInt 1); ("lbpws", PInt 1); ("lbpu", PInt 1); ("provisioning_type", PInt 2);
         ("provisioning_group_descriptor", PNone)]).
Proof. reflexivity. Qed.
Example C49_provisioning_group_example :
  let d := Designator (DesignatorInfo 1 0 0 0) (NaaRegistered 7613 4660) in
  designator_ok d /\ descriptor_bytes d = [1; 3; 0; 8; 80; 1; 219; 208; 0; 0; 18; 52].
Proof.
  unfold designator_ok, info_ok, identifier_ok, below.
  repeat split; try (vm_compute; congruence). repeat constructor; vm_compute; congruence.
Qed.
Example C49_standard_inquiry_example :
  unpack standard_inquiry_data ([0; 0; 6; 50; 31; 16; 64; 2; 73; 78; 70; 73; 78; 73; 68; 32; 66; 79; 88; 0; 0; 0; 0; 0; 0; 0; 0; 0;
                                0; 0; 0; 0; 49; 46; 48; 32])%list =
  Ok (PObj "StandardInquiryDataBuffer"
        [("peripheral_device", PObj "PeripheralDeviceDataBuffer" [("type", PInt 0); ("qualifier", PInt 0)]);
         ("cong", PInt 0); ("rmb", PInt 0); ("version", PInt 6); ("response_data_format", PInt 2); ("hisup", PInt 1);
         ("normaca", PInt 1); ("additional_length", PInt 31); ("protect", PInt 0); ("threepc", PInt 0); ("tpgs", PInt 1);
         ("acc", PInt 0); ("sccs", PInt 0); ("addr16", PInt 0); ("multi_p", PInt 0); ("enc_serv", PInt 1); ("cmd_que", PInt 1);
         ("sync", PInt 0); ("wbus16", PInt 0); ("t10_vendor_identification", PBytes [73; 78; 70; 73; 78; 73; 68]);
         ("product_identification", PBytes [66; 79; 88]); ("product_revision_level", PBytes [49; 46; 48]); ("extended", PNone)]).
Proof. reflexivity. Qed.
Example C49_receive_copy_example :
  unpack receive_copy_response ([0; 0; 0; 42; 1; 0; 0; 0; 0; 2; 0; 1] ++ zeros 24 ++ [1; 9; 9; 9; 0; 0; 0; 2; 2; 228])%list =
  Ok (PObj "ReceiveCopyOperatingParametersResponse"
        [("available_data", PInt 42); ("snlid", PInt 1); ("max_cscd_descriptor_count", PInt 2);
         ("max_segment_descriptor_count", PInt 1); ("max_descriptor_list_length", PInt 0); ("max_segment_length", PInt 0);
         ("max_inline_data_length", PInt 0); ("held_data_limit", PInt 0); ("max_stream_device_transfer_size", PInt 0);
         ("total_concurrent_copies", PInt 0); ("max_concurrent_copies", PInt 1); ("data_segment_granularity", PInt 9);
         ("inline_data_granularity", PInt 9); ("held_data_granularity", PInt 9); ("implemented_descriptor_list_length", PInt 2);
         ("implemented_descriptor_list", PList [PInt 2; PInt 228])]).
Proof. vm_compute. reflexivity. Qed.
Example C49_report_capabilities_example :
  exists l, unpack report_capabilities_response [0; 8; 5; 128; 234; 1; 0; 0] =
            Ok (PObj "PersistentReserveInReportCapabilitiesResponse" l) /\
  lookup "all_target_ports_capable" l = Some (PInt 1) /\ lookup "type_mask_valid" l = Some (PInt 1) /\
  lookup "exclusive_access_all_registrants" l = Some (PInt 1) /\ lookup "compatible_reservation_handling" l = Some (PInt 0).
Proof. eexists. split; [vm_compute; reflexivity|]. repeat split. Qed.

(** ** C50: pack then unpack *)

(** For any class of numeric fields that do not overlap. *)
Theorem C50_pack_unpack : forall name fs a, Forall required fs -> disjoint_fields fs ->
  match pack_buffer fs a with
  | Ok b => Forall (set_and_fits a) fs /\ length b = buffer_size fs /\
            unpack (buffer_class name fs) b = Ok (PObj name (given fs a))
  | Err e => e = EInstruct /\ ~ Forall (set_and_fits a) fs
  end.
Proof. exact roundtrip. Qed.
(** In particular for the classes of the repository listed in [numeric_classes] ... *)
Theorem C50_classes : forall c fs a, In (c, fs) numeric_classes ->
  match pack_buffer fs a with
  | Ok b => Forall (set_and_fits a) fs /\ unpack c b = Ok (PObj (c_name c) (given fs a))
  | Err e => e = EInstruct /\ ~ Forall (set_and_fits a) fs
  end.
Proof. exact numeric_roundtrip. Qed.
(** ... and for the pages that have the peripheral device byte. *)
Theorem C50_pages : forall c fs type qualifier a, In (c, fs) numeric_pages ->
  match pack_page fs type qualifier a with
  | Ok b => below 5 type /\ below 3 qualifier /\ Forall (set_and_fits a) fs /\
            unpack c b =
            Ok (PObj (c_name c) (("peripheral_device", PObj "PeripheralDeviceDataBuffer" [("type", PInt type); ("qualifier", PInt qualifier)])
                           :: given fs a))
  | Err e => e = EInstruct /\ ~ (below 5 type /\ below 3 qualifier /\ Forall (set_and_fits a) fs)
  end.
Proof. exact numeric_pages_roundtrip. Qed.
(** Designators made of bytes. *)
Theorem C50_text_designators : forall t c n header id, In (t, (c, n)) text_classes -> bytes_ok id ->
  match pack_text_designator t header id with
  | Ok b => exists attrs, unpack c b = Ok (PObj (c_name c) (attrs ++ [(n, PBytes id)])%list)
  | Err e => e = EInstruct /\
      ~ Forall (set_and_fits (("designator_length", zlen id) :: ("designator_type", t) :: header)) designator_header
  end.
Proof. exact text_roundtrip. Qed.

Example C50_pack_unpack_example :
  let fs := [I "a" (bits_of 0 0 3); U "b" (bits_of 0 3 8); I "c" (bytes_of 1 3)] in
  let a := [("a", 5); ("b", 17); ("c", -2)] in
  Forall required fs /\ disjoint_fields fs /\ pack_buffer fs a = Ok [141; 255; 254] /\
  unpack (buffer_class "X" fs) [141; 255; 254] = Ok (PObj "X" [("a", PInt 5); ("b", PInt 17); ("c", PInt (-2))]) /\
  pack_buffer fs [("a", 8); ("b", 17); ("c", -2)] = Err EInstruct.
Proof.
  split; [repeat constructor|]. split; [apply InstructFacts.nodupb_ok; reflexivity|].
  split; [vm_compute; reflexivity|]. split; vm_compute; reflexivity.
Qed.
Example C50_classes_example :
  let a := [("code_set", 1); ("protocol_identifier", 0); ("designator_type", 3); ("association", 0); ("piv", 0); ("reserved", 0);
            ("designator_length", 8); ("naa", 5); ("ieee_company_id", 7613); ("vendor_specific_identifier", 4660)] in
  In (naa5_designator, (designator_header ++ naa5_fields)%list) numeric_classes /\
  pack_buffer (designator_header ++ naa5_fields)%list a = Ok [1; 3; 0; 8; 80; 1; 219; 208; 0; 0; 18; 52] /\
  unpack naa5_designator [1; 3; 0; 8; 80; 1; 219; 208; 0; 0; 18; 52] =
  Ok (PObj "NAA_IEEE_Registered_Designator" (map (fun e => (fst e, PInt (snd e))) a)).
Proof. split; [do 6 right; left; reflexivity|]. split; vm_compute; reflexivity. Qed.
Example C50_pages_example :
  pack_page veritas_fields 0 1 [("page_code", 192); ("page_length", 2); ("is_thin_lun", 1); ("is_snapshot_lun", 0);
    ("is_space_optimized_src", 0); ("is_fcdisk_lun", 0); ("is_satadisk_lun", 0); ("is_replication_src", 1);
    ("is_replication_dst", 0); ("raid_type", 5)] = Ok [32; 192; 0; 2; 33; 5].
Proof. vm_compute. reflexivity. Qed.
Example C50_text_designators_example :
  let header := [("code_set", 3); ("protocol_identifier", 5); ("association", 1); ("piv", 1); ("reserved", 0)] in
  pack_text_designator 8 header [105; 113; 110; 46] = Ok [83; 152; 0; 4; 105; 113; 110; 46] /\
  unpack scsi_name_designator [83; 152; 0; 4; 105; 113; 110; 46] =
  Ok (PObj "SCSINameDesignator"
        [("code_set", PInt 3); ("protocol_identifier", PInt 5); ("designator_type", PInt 8); ("association", PInt 1);
         ("piv", PInt 1); ("reserved", PInt 0); ("designator_length", PInt 4); ("scsi_name_string", PBytes [105; 113; 110; 46])]).
Proof. split; vm_compute; reflexivity. Qed.

(** ** C51: device identification *)

Theorem C51_descriptors : forall type qualifier l rest, below 5 type -> below 3 qualifier ->
  Forall designator_ok l -> zlen (flat_map descriptor_bytes l) < 65536 -> bytes_ok rest ->
  unpack device_identification (page_83 type qualifier (flat_map descriptor_bytes l) ++ rest)%list =
  Ok (page_83_object type qualifier (zlen (flat_map descriptor_bytes l)) l).
Proof. exact page_83_spec. Qed.
(** A designator of an unknown kind anywhere in the page. *)
Theorem C51_unknown : forall type qualifier l d t id after rest, below 5 type -> below 3 qualifier ->
  Forall designator_ok l -> info_ok d -> below 4 t -> bytes_ok id -> zlen id <= 255 -> unknown_designator t id ->
  bytes_ok after -> bytes_ok rest ->
  zlen (flat_map descriptor_bytes l ++ raw_descriptor d t id ++ after)%list < 65536 ->
  unpack device_identification
    (page_83 type qualifier (flat_map descriptor_bytes l ++ raw_descriptor d t id ++ after) ++ rest)%list = Err EInstruct.
Proof. exact page_83_unknown. Qed.

Example C51_descriptors_example :
  let l := [Designator (DesignatorInfo 1 0 0 0) (NaaRegisteredExtended 7613 4660 22136);
            Designator (DesignatorInfo 2 0 0 0) (T10 [78; 70; 73] [65; 66; 67]);
            Designator (DesignatorInfo 1 0 1 0) (RelativePort 257)] in
  Forall designator_ok l /\
  page_83 0 0 (flat_map descriptor_bytes l) =
    [0; 131; 0; 43; 1; 3; 0; 16; 96; 1; 219; 208; 0; 0; 18; 52; 0; 0; 0; 0; 0; 0; 86; 120;
     2; 1; 0; 11; 78; 70; 73; 32; 32; 32; 32; 32; 65; 66; 67; 1; 20; 0; 4; 0; 0; 1; 1] /\
  exists p, unpack device_identification (page_83 0 0 (flat_map descriptor_bytes l)) = Ok p.
Proof.
  split; [|split; [vm_compute; reflexivity|eexists; vm_compute; reflexivity]].
  repeat constructor; unfold below, byte_ok; vm_compute; try congruence.
  intros ([|x r] & b & E & B); [discriminate|]. destruct B as [-> | ->];
    destruct r as [|y [|z [|]]]; try discriminate.
Qed.
Example C51_unknown_example : unknown_designator 3 [16; 0; 0; 0; 0; 0; 0; 1] /\ unknown_designator 2 [1; 2; 3].
Proof.
  split.
  - right. split; [reflexivity|]. exists 16, [0; 0; 0; 0; 0; 0; 1]. split; [reflexivity|]. cbn. intuition congruence.
  - left. split; [reflexivity|]. cbn. intuition congruence.
Qed.

(** ** C52: T10 vendor designators, whatever infi.instruct does with a value that is longer
    than its place *)

Theorem C52_t10_lost : forall o header vendor id, bytes_ok vendor -> bytes_ok id -> id <> [] ->
  match pack_t10_designator o header vendor id with
  | Ok b => exists attrs, unpack t10_designator b =
      Ok (PObj "T10VendorIDDesignator"
          (attrs ++ [("t10_vendor_identification", PBytes (strip vendor));
                     ("vendor_specific_identifier", PBytes (firstn (length id - 8) id))])%list) /\ firstn (length id - 8) id <> id
  | Err e => e = EInstruct /\
      ~ (Forall (set_and_fits (("designator_length", zlen id) :: ("designator_type", 1) :: header)) designator_header /\
         (length vendor <= 8)%nat /\ o <> Refuse)
  end.
Proof. exact t10_never. Qed.
Example C52_t10_lost_example :
  let header := [("code_set", 2); ("protocol_identifier", 0); ("association", 0); ("piv", 0); ("reserved", 0)] in
  pack_t10_designator WritePast header [78; 70] [1; 2; 3; 4; 5; 6; 7; 8; 9] =
    Ok [2; 1; 0; 9; 78; 70; 0; 0; 0; 0; 0; 0; 1; 2; 3; 4; 5; 6; 7; 8; 9] /\
  pack_t10_designator Cut header [78; 70] [1; 2; 3; 4; 5; 6; 7; 8; 9] = Ok [2; 1; 0; 9; 78; 70; 0; 0; 0; 0; 0; 0; 1] /\
  pack_t10_designator Refuse header [78; 70] [1; 2; 3; 4; 5; 6; 7; 8; 9] = Err EInstruct.
Proof. repeat split; vm_compute; reflexivity. Qed.

(** ** C53: unit serial number, supported pages *)

Theorem C53_serial_number : forall buf, bytes_ok buf ->
  unpack unit_serial_number buf = if (4 <=? length buf)%nat then Ok (serial_number_object buf) else Err EInstruct.
Proof. exact serial_number_spec. Qed.
Theorem C53_supported_pages : forall buf, bytes_ok buf ->
  unpack supported_vpd_pages buf =
  if (4 <=? length buf)%nat && (4 + Z.to_nat (ub 3 4 buf) <=? length buf)%nat
  then Ok (supported_pages_object buf) else Err EInstruct.
Proof. exact supported_pages_spec. Qed.
Theorem C53_serial_pack : forall type qualifier page_code serial,
  match pack_unit_serial_number type qualifier page_code serial with
  | Ok b => (below 5 type /\ below 3 qualifier /\ below 8 page_code /\ zlen serial <= 255) /\
            unpack unit_serial_number b =
            Ok (PObj "UnitSerialNumberVPDPageBuffer"
                  [("peripheral_device", PObj "PeripheralDeviceDataBuffer" [("type", PInt type); ("qualifier", PInt qualifier)]);
                   ("page_code", PInt page_code); ("page_length", PInt (zlen serial));
                   ("product_serial_number", PBytes (strip serial))])
  | Err e => e = EInstruct /\ ~ (below 5 type /\ below 3 qualifier /\ below 8 page_code /\ zlen serial <= 255)
  end.
Proof. exact serial_roundtrip. Qed.
(** [strip] removes nothing from a serial number that does not end in padding. *)
Theorem C53_serial_kept : forall serial, ~ ends_in_padding serial -> strip serial = serial.
Proof. exact strip_same. Qed.

Example C53_serial_number_example :
  unpack unit_serial_number [0; 128; 0; 4; 65; 66; 67; 32; 99] =
  Ok (PObj "UnitSerialNumberVPDPageBuffer"
        [("peripheral_device", PObj "PeripheralDeviceDataBuffer" [("type", PInt 0); ("qualifier", PInt 0)]);
         ("page_code", PInt 128); ("page_length", PInt 4); ("product_serial_number", PBytes [65; 66; 67])]).
Proof. reflexivity. Qed.
Example C53_supported_pages_example :
  unpack supported_vpd_pages [0; 0; 0; 3; 0; 128; 131] =
  Ok (PObj "SupportedVPDPagesBuffer"
        [("peripheral_device", PObj "PeripheralDeviceDataBuffer" [("type", PInt 0); ("qualifier", PInt 0)]);
         ("page_code", PInt 0); ("page_length", PInt 3); ("vpd_parameters", PList [PInt 0; PInt 128; PInt 131])]) /\
  unpack supported_vpd_pages [0; 0; 0; 3; 0; 128] = Err EInstruct.
Proof. split; reflexivity. Qed.
Example C53_serial_pack_example : pack_unit_serial_number 0 0 128 [65; 66; 67] = Ok [0; 128; 0; 3; 65; 66; 67].
Proof. vm_compute. reflexivity. Qed.
Example C53_serial_kept_example : ~ ends_in_padding [65; 32; 66].
Proof.
  intros ([|x r] & b & E & B); [discriminate|]. destruct B as [-> | ->];
    destruct r as [|y [|z [|]]]; try discriminate.
Qed.

(** ** C54: standard INQUIRY data

    Unpacking: see [standard_inquiry_object] and [extended_object] in SpecVpd.v. *)
Theorem C54_unpack : forall buf, bytes_ok buf ->
  unpack standard_inquiry_data buf = if (8 <=? length buf)%nat then Ok (standard_inquiry_object buf) else Err EInstruct.
Proof. exact standard_inquiry_spec. Qed.
(** Byte 4 of packed data is the number of bytes that follow it. *)
Theorem C54_additional_length : forall type qualifier numbers vendor product revision ext b,
  pack_standard_inquiry type qualifier numbers vendor product revision ext = Ok b ->
  zlen b = 5 + ub 4 5 b /\ match ext with None => zlen b = 36 | Some e => exists x, pack_extended e = Ok x /\ zlen b = 36 + zlen x end.
Proof. exact pack_inquiry_length. Qed.

Example C54_unpack_example :
  let buf := ([0; 0; 6; 2; 57; 0; 0; 0] ++ repeat 65 28 ++ repeat 1 20 ++ [13; 0; 0; 1; 0; 2; 0; 3])%list in
  exists l e, unpack standard_inquiry_data buf = Ok (PObj "StandardInquiryDataBuffer" l) /\
  lookup "extended" l = Some (PObj "StandardInquiryExtendedDataBuffer" e) /\
  lookup "vendor_specific_1" e = Some (PBytes (repeat 1 20)) /\ lookup "ius" e = Some (PInt 1) /\
  lookup "qas" e = Some (PInt 0) /\ lookup "clocking" e = Some (PInt 3) /\
  lookup "version_descriptors" e = Some (PList [PInt 1; PInt 2]) /\ lookup "vendor_specific_2" e = Some PNone.
Proof. eexists; eexists. split; [vm_compute; reflexivity|]. repeat split. Qed.
Example C54_additional_length_example :
  exists b, pack_standard_inquiry 0 0
    (map (fun f => (f_name f, 0)) standard_inquiry_numbers) [65] [66] [67] (Some (Extended (repeat 7 20) 1 0 2 [1; 2; 3] None)) = Ok b /\
  zlen b = 64 /\ ub 4 5 b = 59.
Proof. eexists. split; [vm_compute; reflexivity|]. split; reflexivity. Qed.

(** ** C61: dispatch of the VPD pages *)

Theorem C61_vpd_page : forall code,
  asks (do o <- get_vpd_page code; request o) (below 8 code) (fst (vpd_page code)) (OpInquiry 1 code (fst (vpd_page code))) /\
  c_name (get_vpd_page_data code) = snd (vpd_page code) /\
  (forall o d, get_vpd_page code = Ok o -> o_finish o (o_attrs o) (Some d) = unpack (get_vpd_page_data code) d).
Proof. exact vpd_dispatch. Qed.
(** What the generic class makes of any page. *)
Theorem C61_unknown_vpd_page : forall buf, bytes_ok buf ->
  unpack unknown_vpd_page buf = if (4 <=? length buf)%nat then Ok (unknown_page_object buf) else Err EInstruct.
Proof. exact unknown_page_spec. Qed.

Example C61_vpd_page_example :
  (do o <- get_vpd_page 176; request o) = Ok (ReadCmd [18; 1; 176; 0; 252; 0] 252) /\
  (do o <- get_vpd_page 177; request o) = Ok (ReadCmd [18; 1; 177; 8; 0; 0] 2048) /\
  (do o <- get_vpd_page 256; request o) = Err EInstruct /\ vpd_page 177 = (2048, "UnknownVPDPageBuffer").
Proof. repeat split; vm_compute; reflexivity. Qed.
Example C61_unknown_vpd_page_example :
  unpack unknown_vpd_page [0; 177; 0; 2; 5; 6; 7] =
  Ok (PObj "UnknownVPDPageBuffer"
        [("peripheral_device", PObj "PeripheralDeviceDataBuffer" [("type", PInt 0); ("qualifier", PInt 0)]);
         ("page_code", PInt 177); ("page_length", PInt 2); ("page_data", PList [PInt 5; PInt 6])]).
Proof. reflexivity. Qed.

(** All theorems at once: what is printed holds for each of them. *)
Definition all_theorems := (@C49_block_limits, @C49_veritas, @C49_provisioning, @C49_provisioning_group, @C49_standard_inquiry,
  @C49_receive_copy, @C49_report_capabilities, @C50_pack_unpack, @C50_classes, @C50_pages, @C50_text_designators, @C51_descriptors,
  @C51_unknown, @C52_t10_lost, @C53_serial_number, @C53_supported_pages, @C53_serial_pack, @C53_serial_kept, @C54_unpack,
  @C54_additional_length, @C61_vpd_page, @C61_unknown_vpd_page).
Print Assumptions all_theorems.
