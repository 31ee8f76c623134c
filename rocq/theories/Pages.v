(** INQUIRY data: src/infi/asi/cdb/inquiry.  Paths relative to this directory. *)
From Coq Require Import String ZArith List Bool.
From Verif Require Import Base OsCommon Instruct Command CdbPrimary.
Import ListNotations.
Local Open Scope string_scope.
Local Open Scope Z_scope.

(** A numeric field read and written at the same place (be_uint_field, uint_field: [U];
    be_int_field: [I]), e.g. vpd_pages/block_limits.py:9. *)
Definition U (name : string) (ps : list bitpos) : field := uint_field name ps Required.
(** As above: vpd_pages/block_limits.py:9. *)
Definition I (name : string) (ps : list bitpos) : field := int_field name ps Required.
(** Bit [i] of byte [k]: bytes_ref[k].bits[i], e.g. vpd_pages/block_limits.py:11. *)
Definition bit (k i : nat) : list bitpos := bits_of k i (S i).
(** As above: vpd_pages/block_limits.py:11. *)
Definition reader_of (f : field) : string * reader := (f_name f, r_int (f_signed f) (f_bits f)).
(** As above: vpd_pages/block_limits.py:11. *)
Definition buffer_class (name : string) (fs : list field) : pyclass := PyClass name (map reader_of fs).

(** PeripheralDeviceDataBuffer, __init__.py:12-15. *)
Definition peripheral_device_fields : list field := [I "type" (bits_of 0 0 5); I "qualifier" (bits_of 0 5 8)].
(** As above: __init__.py:12-15. *)
Definition peripheral_device : pyclass := buffer_class "PeripheralDeviceDataBuffer" peripheral_device_fields.
(** [buffer_field(where=bytes_ref[0:], type=PeripheralDeviceDataBuffer)], e.g.
    vpd_pages/block_limits.py:8; [bytes_ref[0]] in standard.py:38 makes no difference. *)
Definition r_peripheral_device : string * reader := ("peripheral_device", r_obj peripheral_device 0 to_end).

(** pack() of a page that consists of that byte and of the numeric fields [fs], e.g.
    vpd_pages/block_limits.py:7-22. *)
Definition pack_page (fs : list field) (type qualifier : Z) (a : attributes) : result bytes :=
  pack_buffer (peripheral_device_fields ++ fs)%list (("type", type) :: ("qualifier", qualifier) :: a).

(** * standard.py *)

(** StandardInquiryExtendedDataBuffer, standard.py:10-33, as it is unpacked. *)
Definition extended_inquiry : pyclass :=
  PyClass "StandardInquiryExtendedDataBuffer"
    [("vendor_specific_1", r_bytes 0 (fun _ buf => Z.min 20 (zlen buf)));
     ("ius", r_if (longer 21) (r_uint (bit 20 0)));
     ("qas", r_if (longer 21) (r_uint (bit 20 1)));
     ("clocking", r_if (longer 21) (r_uint (bits_of 20 2 4)));
     ("version_descriptors", r_if (longer 24) (r_list_n (elem_uint 2) 22 to_end (fun _ buf => Z.min ((zlen buf - 22) / 2) 8)));
     ("vendor_specific_2", r_if (longer 61) (r_bytes 60 to_end))].

(** Numeric fields of StandardInquiryDataBuffer, standard.py:40-66. *)
Definition standard_inquiry_numbers : list field :=
  [U "cong" (bit 1 6); U "rmb" (bit 1 7); U "version" (byte_of 2); U "response_data_format" (bits_of 3 0 4);
   U "hisup" (bit 3 4); U "normaca" (bit 3 5); U "additional_length" (byte_of 4); U "protect" (bit 5 0);
   U "threepc" (bit 5 3); U "tpgs" (bits_of 5 4 6); U "acc" (bit 5 6); U "sccs" (bit 5 7); U "addr16" (bit 6 0);
   U "multi_p" (bit 6 4); U "enc_serv" (bit 6 6); U "cmd_que" (bit 7 1); U "sync" (bit 7 4); U "wbus16" (bit 7 5)].
(** StandardInquiryDataBuffer, standard.py:37-75. *)
Definition standard_inquiry_data : pyclass :=
  PyClass "StandardInquiryDataBuffer"
    (r_peripheral_device :: map reader_of standard_inquiry_numbers ++
     [("t10_vendor_identification", r_str 8 (upto 16)); ("product_identification", r_str 16 (upto 32));
      ("product_revision_level", r_str 32 (upto 36));
      ("extended", r_if (fun got _ => 31 <? int_attr "additional_length" got)
                     (r_obj extended_inquiry 36 (plus "additional_length" 5)))])%list.

(** ** Packing (standard.py) *)

(** Writing bytes at a place of a string that grows as needed. [cdb/inquiry/standard.py:14-95] *)
Definition put (off : nat) (data buf : bytes) : bytes :=
  (slice 0 off (buf ++ zeros (off - length buf)) ++ data ++ skipn (off + length data) buf)%list.
(** Writing some bits of byte [k] of such a string. [cdb/inquiry/standard.py:14-95] *)
Definition put_bits (k lo w : nat) (v : Z) (buf : bytes) : bytes :=
  let b := byte_at k buf in
  let p := 2 ^ Z.of_nat lo in let q := 2 ^ Z.of_nat (lo + w) in
  put k [b / q * q + v * p + b mod p] buf.

(** An object of StandardInquiryExtendedDataBuffer, standard.py:10-33. *)
Record extended := Extended { vendor_specific_1 : bytes; ius : Z; qas : Z; clocking : Z;
                              version_descriptors : list Z; vendor_specific_2 : option bytes }.
(** pack() of it: the fields one after the other. [cdb/inquiry/standard.py:14-30] *)
Definition in_width (w : Z) (v : Z) : result unit := if (0 <=? v) && (v <? 2 ^ w) then Ok tt else Err EInstruct.
(** [cdb/inquiry/standard.py:14-30] *)
Fixpoint all_in_width (w : Z) (l : list Z) : result unit :=
  match l with [] => Ok tt | v :: r => do _ <- in_width w v; all_in_width w r end.
(** [cdb/inquiry/standard.py:14-30] *)
Definition pack_extended (e : extended) : result bytes :=
  do _ <- in_width 1 (ius e);
  do _ <- in_width 1 (qas e);
  do _ <- in_width 2 (clocking e);
  do _ <- all_in_width 16 (version_descriptors e);
  let b1 := put 0 (vendor_specific_1 e) [] in
  let b2 := put_bits 20 0 1 (ius e) b1 in
  let b3 := put_bits 20 1 1 (qas e) b2 in
  let b4 := put_bits 20 2 2 (clocking e) b3 in
  let b5 := put 22 (flat_map (be_bytes 2) (version_descriptors e)) b4 in
  Ok (match vendor_specific_2 e with None => b5 | Some v => put 60 v b5 end).

(** str_field(padding=b' ', justify='left'), standard.py:68-70: a text that is too long
    is refused. *)
Definition pack_text (pad : Z) (n : nat) (s : bytes) : result bytes :=
  if (length s <=? n)%nat then Ok (s ++ repeat pad (n - length s))%list else Err EInstruct.

(** pack() of StandardInquiryDataBuffer, standard.py:37-84: [numbers] are the attributes of
    the numeric fields; additional_length is computed (standard.py:47-48, 80-84). *)
Definition pack_standard_inquiry (type qualifier : Z) (numbers : attributes) (vendor product revision : bytes)
    (ext : option extended) : result bytes :=
  do pd <- pack_buffer peripheral_device_fields [("type", type); ("qualifier", qualifier)];
  do e <- match ext with None => Ok [] | Some e => pack_extended e end;
  do n <- pack_fields 8 standard_inquiry_numbers (("additional_length", 31 + zlen e) :: numbers);
  do v <- pack_text 32 8 vendor;
  do p <- pack_text 32 16 product;
  do r <- pack_text 32 4 revision;
  Ok (pd ++ skipn 1 n ++ v ++ p ++ r ++ e)%list.

(** StandardInquiryCommand, standard.py:91-95. *)
Definition standard_inquiry_command (page_code evpd allocation_length : Z) : result cdb_object :=
  inquiry evpd page_code allocation_length (unpack standard_inquiry_data).

(** * vpd_pages/designators.py *)

(** A reference made of several, e.g. [bytes_ref[5] + bytes_ref[4].bits[0:4]]
    (designators.py:50): the first one holds the least significant bits. *)
Definition sum_of (parts : list (list bitpos)) : list bitpos := concat parts.

(** DesignatorDescriptor, designators.py:8-15.  The subclasses that define
    designator_length again (designators.py:21, 92, 98, 104, 109) change packing only. *)
Definition designator_header : list field :=
  [U "code_set" (bits_of 0 0 4); U "protocol_identifier" (bits_of 0 4 8); U "designator_type" (bits_of 1 0 4);
   U "association" (bits_of 1 4 6); U "piv" (bit 1 7); U "reserved" (byte_of 2); U "designator_length" (byte_of 3)].
(** A subclass with additional numeric fields. [designators.py:8-15, 28] *)
Definition designator_class (name : string) (fs : list field) : pyclass :=
  buffer_class name (designator_header ++ fs)%list.
(** A subclass with additional fields of bytes. [designators.py:20-22] *)
Definition designator_text_class (name : string) (l : list (string * reader)) : pyclass :=
  PyClass name (map reader_of designator_header ++ l)%list.
(** [designators.py:22] *)
Definition announced : attrs -> bytes -> Z := plus "designator_length" 4.

(** EUI64_Designator, designators.py:26-28. *)
Definition eui64_fields : list field :=
  [U "ieee_company" (bytes_of 4 7); U "vendor_specific_extension_identifer" (bytes_of 7 12)].
(** As above: designators.py:26-28. *)
Definition eui64_designator := designator_class "EUI64_Designator" eui64_fields.
(** EUI64_12Byte_Designator, designators.py:32-33. *)
Definition eui64_12_fields : list field := (eui64_fields ++ [U "directory_id" (bytes_of 12 16)])%list.
(** As above: designators.py:32-33. *)
Definition eui64_12_designator := designator_class "EUI64_12Byte_Designator" eui64_12_fields.
(** EUI64_16Byte_Designator, designators.py:37-40. *)
Definition eui64_16_fields : list field :=
  [U "identifier_extension" (bytes_of 4 12); U "ieee_company" (bytes_of 12 15);
   U "vendor_specific_extension_identifer" (bytes_of 15 20)].
(** As above: designators.py:37-40. *)
Definition eui64_16_designator := designator_class "EUI64_16Byte_Designator" eui64_16_fields.
(** NAA_Descriptor, designators.py:44-45. *)
Definition naa_field : field := U "naa" (bits_of 4 4 8).
(** As above: designators.py:44-45. *)
Definition naa_descriptor := designator_class "NAA_Descriptor" [naa_field].
(** NAA_IEEE_Extended_Designator, designators.py:49-52. *)
Definition naa2_fields : list field :=
  [naa_field; U "vendor_specific_identifier_a" (sum_of [byte_of 5; bits_of 4 0 4]);
   U "ieee_company" (bytes_of 6 9); U "vendor_specific_identifier_b" (bytes_of 9 12)].
(** As above: designators.py:49-52. *)
Definition naa2_designator := designator_class "NAA_IEEE_Extended_Designator" naa2_fields.
(** NAA_Locally_Assigned_Designator, designators.py:56-59. *)
Definition naa3_fields : list field :=
  [naa_field; U "locally_administered_value"
                (sum_of [byte_of 11; byte_of 10; byte_of 9; byte_of 8; byte_of 7; byte_of 6; byte_of 5; bits_of 4 0 4])].
(** As above: designators.py:56-59. *)
Definition naa3_designator := designator_class "NAA_Locally_Assigned_Designator" naa3_fields.
(** NAA_IEEE_Registered_Designator, designators.py:63-67. *)
Definition naa5_fields : list field :=
  [naa_field; U "ieee_company_id" (sum_of [bits_of 7 4 8; byte_of 6; byte_of 5; bits_of 4 0 4]);
   U "vendor_specific_identifier" (sum_of [byte_of 11; byte_of 10; byte_of 9; byte_of 8; bits_of 7 0 4])].
(** As above: designators.py:63-67. *)
Definition naa5_designator := designator_class "NAA_IEEE_Registered_Designator" naa5_fields.
(** NAA_IEEE_Registered_Extended_Designator, designators.py:71-72. *)
Definition naa6_fields : list field := (naa5_fields ++ [U "vendor_specific_identifier_extension" (bytes_of 12 20)])%list.
(** As above: designators.py:71-72. *)
Definition naa6_designator := designator_class "NAA_IEEE_Registered_Extended_Designator" naa6_fields.
(** RelativeTargetPortDesignator, TargetPortGroupDesignator and LogicalUnitGroupDesignator,
    designators.py:76-87. *)
Definition relative_target_port_designator :=
  designator_class "RelativeTargetPortDesignator" [U "relative_target_port_identifier" (bytes_of 6 8)].
(** As above: designators.py:76-87. *)
Definition target_port_group_designator :=
  designator_class "TargetPortGroupDesignator" [U "target_port_group" (bytes_of 6 8)].
(** As above: designators.py:76-87. *)
Definition logical_unit_group_designator :=
  designator_class "LogicalUnitGroupDesignator" [U "logical_unit_group" (bytes_of 6 8)].
(** MD5LogicalUnitDesignator, SCSINameDesignator, VendorSpecificDesignator and
    T10VendorIDDesignator, designators.py:91-111; Reserved_Designator, designators.py:20-22. *)
Definition md5_designator :=
  designator_text_class "MD5LogicalUnitDesignator" [("md5_logical_unit_identifier", r_bytes 4 announced)].
(** As above: designators.py:91-111; designators.py:20-22. *)
Definition scsi_name_designator :=
  designator_text_class "SCSINameDesignator" [("scsi_name_string", r_bytes 4 announced)].
(** As above: designators.py:91-111; designators.py:20-22. *)
Definition vendor_specific_designator :=
  designator_text_class "VendorSpecificDesignator" [("vendor_specific_identifier", r_bytes 4 announced)].
(** As above: designators.py:91-111; designators.py:20-22. *)
Definition t10_designator :=
  designator_text_class "T10VendorIDDesignator"
    [("t10_vendor_identification", r_str 4 (upto 12)); ("vendor_specific_identifier", r_bytes 12 announced)].
(** As above: designators.py:91-111; designators.py:20-22. *)
Definition reserved_designator :=
  designator_text_class "Reserved_Designator" [("desginator", r_str 4 announced)].

(** How many bytes unpack of a designator takes: up to the end of its last field.
    [designators.py:8-110] *)
Inductive extent := Upto (n : nat) | Announced (n : nat).
(** The classes with their extents. [designators.py:8-169] *)
Definition designator_kind : Type := pyclass * extent.

(** EUI64_BY_LENGTH and _determine_eui_designator, designators.py:114-118, 138-142. *)
Definition determine_eui (length : Z) : result designator_kind :=
  match length with
  | 8 => Ok (eui64_designator, Upto 12)
  | 12 => Ok (eui64_12_designator, Upto 16)
  | 16 => Ok (eui64_16_designator, Upto 20)
  | _ => Err EInstruct
  end.
(** NAA_BY_TYPE and _determine_naa_designator, designators.py:120-125, 145-150. *)
Definition determine_naa (buf : bytes) : result designator_kind :=
  do h <- unpack_fields (c_fields naa_descriptor) [] buf;
  match int_attr "naa" h with
  | 2 => Ok (naa2_designator, Upto 12)
  | 3 => Ok (naa3_designator, Upto 12)
  | 5 => Ok (naa5_designator, Upto 12)
  | 6 => Ok (naa6_designator, Upto 20)
  | _ => Err EInstruct
  end.
(** SINGLE_TYPE_DESIGNATORS and determine_designator, designators.py:127-135, 153-169. *)
Definition determine_designator (buf : bytes) : result designator_kind :=
  do h <- unpack_fields (map reader_of designator_header) [] buf;
  match int_attr "designator_type" h with
  | 0 => Ok (vendor_specific_designator, Announced 4)
  | 1 => Ok (t10_designator, Announced 12)
  | 4 => Ok (relative_target_port_designator, Upto 8)
  | 5 => Ok (target_port_group_designator, Upto 8)
  | 6 => Ok (logical_unit_group_designator, Upto 8)
  | 7 => Ok (md5_designator, Announced 4)
  | 8 => Ok (scsi_name_designator, Announced 4)
  | 2 => determine_eui (int_attr "designator_length" h)
  | 3 => determine_naa buf
  | t => if (9 <=? t) && (t <=? 15) then Ok (reserved_designator, Announced 4) else Err EInstruct
  end.
(** An element of the list of designators (vpd_pages/device_identification.py:12-13). *)
Definition designator_element : element := fun buf =>
  do (c, e) <- determine_designator buf;
  do v <- unpack c buf;
  match v with
  | PObj _ l =>
      Ok (v, match e with
             | Upto n => n
             | Announced n => Nat.max n (Z.to_nat (4 + int_attr "designator_length" l))
             end)
  | _ => Err EFault
  end.

(** ** Packing T10VendorIDDesignator, designators.py:108-111

    designator_length is the length of vendor_specific_identifier, which is written to the
    bytes 12 to 4 + designator_length, a range that is 8 bytes too short for it.  What
    infi.instruct does then is left open: it may cut the value, write past the range, or
    refuse. *)
Inductive overflow := Cut | WritePast | Refuse.
(** As above: designators.py:108-111. *)
Definition pack_t10_designator (o : overflow) (header : attributes) (vendor id : bytes) : result bytes :=
  do h <- pack_buffer designator_header (("designator_length", zlen id) :: ("designator_type", 1) :: header);
  do v <- pack_text 0 8 vendor;
  let room := (length id - 8)%nat in
  if (length id <=? room)%nat then Ok (h ++ v ++ id)%list
  else match o with
       | Cut => Ok (h ++ v ++ firstn room id)%list
       | WritePast => Ok (h ++ v ++ id)%list
       | Refuse => Err EInstruct
       end.

(** Packing SCSINameDesignator, MD5LogicalUnitDesignator and VendorSpecificDesignator,
    designators.py:91-105: a header with the length, followed by the identifier. *)
Definition pack_text_designator (type : Z) (header : attributes) (id : bytes) : result bytes :=
  do h <- pack_buffer designator_header (("designator_length", zlen id) :: ("designator_type", type) :: header);
  Ok (h ++ id)%list.

(** * VPD pages *)

(** DeviceIdentificationVPDPageBuffer, vpd_pages/device_identification.py:8-13. *)
Definition device_identification : pyclass :=
  PyClass "DeviceIdentificationVPDPageBuffer"
    [r_peripheral_device; ("page_code", r_uint (byte_of 1)); ("page_length", r_uint (bytes_of 2 4));
     ("designators_list", r_list designator_element 4 (plus "page_length" 4))].

(** BlockLimitsVPDPageBuffer, vpd_pages/block_limits.py:7-22. *)
Definition block_limits_fields : list field :=
  [U "page_code" (byte_of 1); U "page_length" (bytes_of 2 4); U "wsnz" (bit 4 0);
   U "maximum_compare_and_write_length" (byte_of 5); U "optimal_transfer_length_granularity" (bytes_of 6 8);
   U "maximum_transfer_length" (bytes_of 8 12); U "optimal_transfer_length" (bytes_of 12 16);
   U "maximum_prefetch_xdread_xdwrite_transfer_length" (bytes_of 16 20); U "maximum_unmap_lba_count" (bytes_of 20 24);
   U "maximum_unmap_block_descriptor_count" (bytes_of 24 28); U "optimal_unmap_granularity" (bytes_of 28 32);
   U "unmap_granularity_alignment" (sum_of [byte_of 35; byte_of 34; byte_of 33; bits_of 32 0 7]);
   U "ugavalid" (bit 32 7); U "maximum_write_same_length" (bytes_of 36 44)].
(** As above: vpd_pages/block_limits.py:7-22. *)
Definition block_limits : pyclass :=
  PyClass "BlockLimitsVPDPageBuffer" (r_peripheral_device :: map reader_of block_limits_fields).

(** LogicalBlockProvisioningVPDPageBuffer, vpd_pages/logical_block_provisioning.py:8-26. *)
Definition provisioning_fields : list field :=
  [U "page_code" (byte_of 1); U "page_length" (bytes_of 2 4); U "threshold_exponent" (byte_of 4); U "dp" (bit 5 0);
   U "anc_sup" (bit 5 1); U "lbprz" (bit 5 2); U "lbpws10" (bit 5 5); U "lbpws" (bit 5 6); U "lbpu" (bit 5 7);
   U "provisioning_type" (bits_of 6 0 3)].
(** As above: vpd_pages/logical_block_provisioning.py:8-26. *)
Definition logical_block_provisioning : pyclass :=
  PyClass "LogicalBlockProvisioningVPDPageBuffer"
    (r_peripheral_device :: map reader_of provisioning_fields ++
     [("provisioning_group_descriptor",
         r_if (longer 9) (fun _ buf => do (v, _) <- designator_element (skipn 8 buf); Ok v))])%list.

(** SupportedVPDPagesBuffer, vpd_pages/supported_pages.py:7-12. *)
Definition supported_vpd_pages : pyclass :=
  PyClass "SupportedVPDPagesBuffer"
    [r_peripheral_device; ("page_code", r_uint (byte_of 1)); ("page_length", r_uint (byte_of 3));
     ("vpd_parameters", r_list_n (elem_uint 1) 4 to_end (fun got _ => int_attr "page_length" got))].

(** UnitSerialNumberVPDPageBuffer, vpd_pages/unit_serial_number.py:7-11. *)
Definition unit_serial_number : pyclass :=
  PyClass "UnitSerialNumberVPDPageBuffer"
    [r_peripheral_device; ("page_code", r_uint (byte_of 1)); ("page_length", r_uint (byte_of 3));
     ("product_serial_number", r_str 4 (plus "page_length" 4))].
(** pack() of it: page_length is the length of the serial number. [unit_serial_number.py:7-11] *)
Definition pack_unit_serial_number (type qualifier page_code : Z) (serial : bytes) : result bytes :=
  do h <- pack_fields 4 (peripheral_device_fields ++ [U "page_code" (byte_of 1); U "page_length" (byte_of 3)])%list
            [("type", type); ("qualifier", qualifier); ("page_code", page_code); ("page_length", zlen serial)];
  Ok (h ++ serial)%list.

(** UnknownVPDPageBuffer, vpd_pages/unknown.py:7-11. *)
Definition unknown_vpd_page : pyclass :=
  PyClass "UnknownVPDPageBuffer"
    [r_peripheral_device; ("page_code", r_uint (byte_of 1)); ("page_length", r_uint (bytes_of 2 4));
     ("page_data", r_list (elem_uint 1) 4 (plus "page_length" 4))].

(** VeritasVPDPageBuffer, vpd_pages/veritas.py:7-19. *)
Definition veritas_fields : list field :=
  [U "page_code" (byte_of 1); U "page_length" (bytes_of 2 4); U "is_thin_lun" (bit 4 0); U "is_snapshot_lun" (bit 4 1);
   U "is_space_optimized_src" (bit 4 2); U "is_fcdisk_lun" (bit 4 3); U "is_satadisk_lun" (bit 4 4);
   U "is_replication_src" (bit 4 5); U "is_replication_dst" (bit 4 6); U "raid_type" (byte_of 5)].
(** As above: vpd_pages/veritas.py:7-19. *)
Definition veritas : pyclass :=
  PyClass "VeritasVPDPageBuffer" (r_peripheral_device :: map reader_of veritas_fields).

(** ** ATA information, vpd_pages/ata_information.py *)

(** A str_field over single bytes in the given order, ata_information.py:15-21. *)
Definition r_str_at (ks : list nat) : reader :=
  fun _ buf => Ok (PBytes (strip (flat_map (fun k => slice k (S k) buf) ks))).
(** AtaIdentifyDevice, ata_information.py:7-21. *)
Definition ata_identify_device : pyclass :=
  PyClass "AtaIdentifyDevice"
    [("serial_number", r_str_at [21; 20; 23; 22; 25; 24; 27; 26; 29; 28; 31; 30; 33; 32; 35; 34; 37; 36; 39; 38]%nat);
     ("firmware_revision", r_str_at [47; 46; 49; 48; 51; 50; 53; 52]%nat);
     ("model_number", r_str_at [55; 54; 57; 56; 59; 58; 61; 60; 63; 62; 65; 64; 67; 66; 69; 68; 71; 70; 73; 72; 75; 74;
                                77; 76; 79; 78; 81; 80; 83; 82; 85; 84; 87; 86; 89; 88; 91; 90]%nat)].
(** DeviceSignature, ata_information.py:24-34. *)
Definition device_signature : pyclass :=
  PyClass "DeviceSignature"
    (map reader_of [I "transport_id" (byte_of 0); I "pm_port" (bits_of 1 0 4); I "interrupt" (bit 1 6);
                    I "status" (byte_of 2); I "error" (byte_of 3)] ++
     [("lba", r_str_at [4; 5; 6; 8; 9; 10]%nat)] ++
     map reader_of [I "device" (byte_of 7); I "sector_count" (bytes_of 12 14)])%list.
(** AtaInformationVPDPageBuffer, ata_information.py:37-48. *)
Definition ata_information : pyclass :=
  PyClass "AtaInformationVPDPageBuffer"
    [r_peripheral_device; ("page_code", r_sint (byte_of 1)); ("page_length", r_sint (bytes_of 2 4));
     ("sat_vendor_identification", r_str 8 (upto 16)); ("sat_product_identification", r_str 16 (upto 32));
     ("sat_product_revision_level", r_str 32 (upto 36)); ("device_signature", r_obj device_signature 36 (upto 56));
     ("command_code", r_sint (byte_of 56)); ("identify_device", r_obj ata_identify_device 60 (upto 572))].

(** * Dispatch, vpd_pages/__init__.py *)

(** SUPPORTED_VPD_PAGES_DATA and get_vpd_page_data, vpd_pages/__init__.py:19-25, 160-168, 175-176. *)
Definition get_vpd_page_data (page_code : Z) : pyclass :=
  match page_code with
  | 0 => supported_vpd_pages
  | 128 => unit_serial_number
  | 131 => device_identification
  | 137 => ata_information
  | 176 => block_limits
  | 178 => logical_block_provisioning
  | 192 => veritas
  | _ => unknown_vpd_page
  end.

(** EVPDInquiryCommand, vpd_pages/__init__.py:5-8. *)
Definition evpd_inquiry (page_code allocation_length : Z) (c : pyclass) : result cdb_object :=
  inquiry 1 page_code allocation_length (unpack c).

(** The command classes of the pages, called without arguments: supported_pages.py:16-18,
    unit_serial_number.py:15-17, device_identification.py:17-19, ata_information.py:52-54,
    block_limits.py:25-27, logical_block_provisioning.py:29-31, veritas.py:23-25,
    unknown.py:15-19; SUPPORTED_VPD_PAGES_COMMANDS and get_vpd_page,
    vpd_pages/__init__.py:150-158, 171-172. *)
Definition get_vpd_page (page_code : Z) : result cdb_object :=
  match page_code with
  | 0 => evpd_inquiry 0 252 supported_vpd_pages
  | 128 => evpd_inquiry 128 252 unit_serial_number
  | 131 => evpd_inquiry 131 252 device_identification
  | 137 => evpd_inquiry 137 1024 ata_information
  | 176 => evpd_inquiry 176 252 block_limits
  | 178 => evpd_inquiry 178 252 logical_block_provisioning
  | 192 => evpd_inquiry 192 252 veritas
  | _ => evpd_inquiry page_code 2048 unknown_vpd_page
  end.
