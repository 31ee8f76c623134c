(** Specification of the pages returned by INQUIRY and of some other parameter data, written
    from the standards (SPC-4, SPC-5, SBC-3) with the attribute names of the library.
    Models no code of /repo. *)
From Coq Require Import String ZArith List Bool.
From Verif Require Import Base Instruct SpecDevice SpecLayout.
Import ListNotations.
Local Open Scope string_scope.
Local Open Scope Z_scope.

(** * Places of the numbers *)

(** Byte 0 of all INQUIRY data: PERIPHERAL QUALIFIER and PERIPHERAL DEVICE TYPE. *)
Definition peripheral_layout : layout := [("type", Bits 0 0 5); ("qualifier", Bits 0 5 3)].
Definition peripheral_value (buf : bytes) : string * pyval :=
  ("peripheral_device", PObj "PeripheralDeviceDataBuffer" (layout_values peripheral_layout buf)).

(** Standard INQUIRY data, SPC-4 6.4.2 (SPC-5 for the fields LU_CONG, ADDR16, SYNC, WBUS16). *)
Definition standard_inquiry_layout : layout :=
  [("cong", flag 1 6); ("rmb", flag 1 7); ("version", Num 2 3); ("response_data_format", Bits 3 0 4);
   ("hisup", flag 3 4); ("normaca", flag 3 5); ("additional_length", Num 4 5); ("protect", flag 5 0);
   ("threepc", flag 5 3); ("tpgs", Bits 5 4 2); ("acc", flag 5 6); ("sccs", flag 5 7); ("addr16", flag 6 0);
   ("multi_p", flag 6 4); ("enc_serv", flag 6 6); ("cmd_que", flag 7 1); ("sync", flag 7 4); ("wbus16", flag 7 5)].

(** Block Limits page, SBC-3 6.5.3. *)
Definition block_limits_layout : layout :=
  [("page_code", Num 1 2); ("page_length", Num 2 4); ("wsnz", flag 4 0); ("maximum_compare_and_write_length", Num 5 6);
   ("optimal_transfer_length_granularity", Num 6 8); ("maximum_transfer_length", Num 8 12);
   ("optimal_transfer_length", Num 12 16); ("maximum_prefetch_xdread_xdwrite_transfer_length", Num 16 20);
   ("maximum_unmap_lba_count", Num 20 24); ("maximum_unmap_block_descriptor_count", Num 24 28);
   ("optimal_unmap_granularity", Num 28 32); ("unmap_granularity_alignment", Mid 32 36 0 31); ("ugavalid", flag 32 7);
   ("maximum_write_same_length", Num 36 44)].

(** Logical Block Provisioning page, SBC-3 6.5.4. *)
Definition provisioning_layout : layout :=
  [("page_code", Num 1 2); ("page_length", Num 2 4); ("threshold_exponent", Num 4 5); ("dp", flag 5 0);
   ("anc_sup", flag 5 1); ("lbprz", flag 5 2); ("lbpws10", flag 5 5); ("lbpws", flag 5 6); ("lbpu", flag 5 7);
   ("provisioning_type", Bits 6 0 3)].

(** Vendor page C0h of Veritas. *)
Definition veritas_layout : layout :=
  [("page_code", Num 1 2); ("page_length", Num 2 4); ("is_thin_lun", flag 4 0); ("is_snapshot_lun", flag 4 1);
   ("is_space_optimized_src", flag 4 2); ("is_fcdisk_lun", flag 4 3); ("is_satadisk_lun", flag 4 4);
   ("is_replication_src", flag 4 5); ("is_replication_dst", flag 4 6); ("raid_type", Num 5 6)].

(** RECEIVE COPY OPERATING PARAMETERS, SPC-4 6.23. *)
Definition receive_copy_layout : layout :=
  [("available_data", Num 0 4); ("snlid", flag 4 0); ("max_cscd_descriptor_count", Num 8 10);
   ("max_segment_descriptor_count", Num 10 12); ("max_descriptor_list_length", Num 12 16);
   ("max_segment_length", Num 16 20); ("max_inline_data_length", Num 20 24); ("held_data_limit", Num 24 28);
   ("max_stream_device_transfer_size", Num 28 32); ("total_concurrent_copies", Num 34 36);
   ("max_concurrent_copies", Num 36 37); ("data_segment_granularity", Num 37 38); ("inline_data_granularity", Num 38 39);
   ("held_data_granularity", Num 39 40); ("implemented_descriptor_list_length", Num 43 44)].

(** PERSISTENT RESERVE IN, REPORT CAPABILITIES, SPC-4 6.15.4. *)
Definition report_capabilities_layout : layout :=
  [("length", Num 0 2); ("persist_through_power_lost_capable", flag 2 0); ("reserved_1", flag 2 1);
   ("all_target_ports_capable", flag 2 2); ("specify_initiator_ports_capable", flag 2 3);
   ("compatible_reservation_handling", flag 2 4); ("reserved_2", Bits 2 5 2); ("replace_lost_reservation_capable", flag 2 7);
   ("persist_through_power_lost_activates", flag 3 0); ("reserved_3", Bits 3 1 3); ("allow_commands", Bits 3 4 3);
   ("type_mask_valid", flag 3 7); ("write_exclusive", flag 4 1); ("exclusive_access", flag 4 3);
   ("write_exclusive_registrants_only", flag 4 5); ("exclusive_access_registrants_only", flag 4 6);
   ("write_exclusive_all_registrants", flag 4 7); ("exclusive_access_all_registrants", flag 5 0); ("reserved_4", Num 6 8)].

(** * Designation descriptors, SPC-4 7.8.5 *)

Record designator_info := DesignatorInfo { d_code_set : Z; d_protocol : Z; d_association : Z; d_piv : Z }.

Inductive identifier :=
| VendorSpecific (id : bytes)
| T10 (vendor id : bytes)                     (* vendor: at most 8 bytes, padded with spaces *)
| Eui64 (company extension : Z)
| Eui64_12 (company extension directory : Z)
| Eui64_16 (id_extension company extension : Z)
| NaaExtended (a company b : Z)
| NaaLocal (value : Z)
| NaaRegistered (company id : Z)
| NaaRegisteredExtended (company id extension : Z)
| RelativePort (port : Z)
| PortGroup (group : Z)
| UnitGroup (group : Z)
| Md5 (id : bytes)
| ScsiName (name : bytes)
| ReservedType (type : Z) (id : bytes).

Record designator := Designator { d_info : designator_info; d_id : identifier }.

(** DESIGNATOR TYPE. *)
Definition type_code (i : identifier) : Z :=
  match i with
  | VendorSpecific _ => 0 | T10 _ _ => 1
  | Eui64 _ _ => 2 | Eui64_12 _ _ _ => 2 | Eui64_16 _ _ _ => 2
  | NaaExtended _ _ _ => 3 | NaaLocal _ => 3 | NaaRegistered _ _ => 3 | NaaRegisteredExtended _ _ _ => 3
  | RelativePort _ => 4 | PortGroup _ => 5 | UnitGroup _ => 6 | Md5 _ => 7 | ScsiName _ => 8
  | ReservedType t _ => t
  end.

(** DESIGNATOR: an NAA identifier is one number of 64 or 128 bits of which the highest four
    are the NAA. *)
Definition id_bytes (i : identifier) : bytes :=
  match i with
  | VendorSpecific id => id
  | T10 v id => v ++ repeat 32 (8 - length v) ++ id
  | Eui64 c e => be_bytes 8 (c * 2 ^ 40 + e)
  | Eui64_12 c e d => be_bytes 8 (c * 2 ^ 40 + e) ++ be_bytes 4 d
  | Eui64_16 x c e => be_bytes 8 x ++ be_bytes 8 (c * 2 ^ 40 + e)
  | NaaExtended a c b => be_bytes 8 (2 * 2 ^ 60 + a * 2 ^ 48 + c * 2 ^ 24 + b)
  | NaaLocal v => be_bytes 8 (3 * 2 ^ 60 + v)
  | NaaRegistered c v => be_bytes 8 (5 * 2 ^ 60 + c * 2 ^ 36 + v)
  | NaaRegisteredExtended c v x => be_bytes 8 (6 * 2 ^ 60 + c * 2 ^ 36 + v) ++ be_bytes 8 x
  | RelativePort p => 0 :: 0 :: be_bytes 2 p
  | PortGroup g => 0 :: 0 :: be_bytes 2 g
  | UnitGroup g => 0 :: 0 :: be_bytes 2 g
  | Md5 id => id
  | ScsiName id => id
  | ReservedType _ id => id
  end%list.

Definition below (n v : Z) : Prop := 0 <= v < 2 ^ n.
Definition ends_in_padding (s : bytes) : Prop := exists r b, s = (r ++ [b])%list /\ (b = 0 \/ b = 32).
Definition identifier_ok (i : identifier) : Prop :=
  bytes_ok (id_bytes i) /\ zlen (id_bytes i) <= 255 /\
  match i with
  | T10 v _ => zlen v <= 8 /\ ~ ends_in_padding v
  | Eui64 c e => below 24 c /\ below 40 e
  | Eui64_12 c e d => below 24 c /\ below 40 e /\ below 32 d
  | Eui64_16 x c e => below 64 x /\ below 24 c /\ below 40 e
  | NaaExtended a c b => below 12 a /\ below 24 c /\ below 24 b
  | NaaLocal v => below 60 v
  | NaaRegistered c v => below 24 c /\ below 36 v
  | NaaRegisteredExtended c v x => below 24 c /\ below 36 v /\ below 64 x
  | RelativePort p => below 16 p
  | PortGroup g => below 16 g
  | UnitGroup g => below 16 g
  | ReservedType t id => 9 <= t <= 15 /\ ~ ends_in_padding id
  | _ => True
  end.
Definition info_ok (d : designator_info) : Prop :=
  below 4 (d_code_set d) /\ below 4 (d_protocol d) /\ below 2 (d_association d) /\ below 1 (d_piv d).
Definition designator_ok (d : designator) : Prop := info_ok (d_info d) /\ identifier_ok (d_id d).

(** A descriptor with any contents, and a conforming one. *)
Definition raw_descriptor (d : designator_info) (type : Z) (id : bytes) : bytes :=
  (d_code_set d + 16 * d_protocol d) :: (type + 16 * d_association d + 128 * d_piv d) :: 0 :: zlen id :: id.
Definition descriptor_bytes (d : designator) : bytes :=
  raw_descriptor (d_info d) (type_code (d_id d)) (id_bytes (d_id d)).

(** The object the library has for it. *)
Definition id_class (i : identifier) : string :=
  match i with
  | VendorSpecific _ => "VendorSpecificDesignator" | T10 _ _ => "T10VendorIDDesignator"
  | Eui64 _ _ => "EUI64_Designator" | Eui64_12 _ _ _ => "EUI64_12Byte_Designator"
  | Eui64_16 _ _ _ => "EUI64_16Byte_Designator"
  | NaaExtended _ _ _ => "NAA_IEEE_Extended_Designator" | NaaLocal _ => "NAA_Locally_Assigned_Designator"
  | NaaRegistered _ _ => "NAA_IEEE_Registered_Designator"
  | NaaRegisteredExtended _ _ _ => "NAA_IEEE_Registered_Extended_Designator"
  | RelativePort _ => "RelativeTargetPortDesignator" | PortGroup _ => "TargetPortGroupDesignator"
  | UnitGroup _ => "LogicalUnitGroupDesignator" | Md5 _ => "MD5LogicalUnitDesignator"
  | ScsiName _ => "SCSINameDesignator" | ReservedType _ _ => "Reserved_Designator"
  end.
Definition id_attrs (i : identifier) : attrs :=
  match i with
  | VendorSpecific id => [("vendor_specific_identifier", PBytes id)]
  | T10 v id => [("t10_vendor_identification", PBytes v); ("vendor_specific_identifier", PBytes id)]
  | Eui64 c e => [("ieee_company", PInt c); ("vendor_specific_extension_identifer", PInt e)]
  | Eui64_12 c e d => [("ieee_company", PInt c); ("vendor_specific_extension_identifer", PInt e); ("directory_id", PInt d)]
  | Eui64_16 x c e => [("identifier_extension", PInt x); ("ieee_company", PInt c); ("vendor_specific_extension_identifer", PInt e)]
  | NaaExtended a c b => [("naa", PInt 2); ("vendor_specific_identifier_a", PInt a); ("ieee_company", PInt c);
                          ("vendor_specific_identifier_b", PInt b)]
  | NaaLocal v => [("naa", PInt 3); ("locally_administered_value", PInt v)]
  | NaaRegistered c v => [("naa", PInt 5); ("ieee_company_id", PInt c); ("vendor_specific_identifier", PInt v)]
  | NaaRegisteredExtended c v x => [("naa", PInt 6); ("ieee_company_id", PInt c); ("vendor_specific_identifier", PInt v);
                                    ("vendor_specific_identifier_extension", PInt x)]
  | RelativePort p => [("relative_target_port_identifier", PInt p)]
  | PortGroup g => [("target_port_group", PInt g)]
  | UnitGroup g => [("logical_unit_group", PInt g)]
  | Md5 id => [("md5_logical_unit_identifier", PBytes id)]
  | ScsiName id => [("scsi_name_string", PBytes id)]
  | ReservedType _ id => [("desginator", PBytes id)]
  end.
Definition designator_object (d : designator) : pyval :=
  PObj (id_class (d_id d))
    ([("code_set", PInt (d_code_set (d_info d))); ("protocol_identifier", PInt (d_protocol (d_info d)));
      ("designator_type", PInt (type_code (d_id d))); ("association", PInt (d_association (d_info d)));
      ("piv", PInt (d_piv (d_info d))); ("reserved", PInt 0); ("designator_length", PInt (zlen (id_bytes (d_id d))))]
     ++ id_attrs (d_id d))%list.

(** Device Identification page. *)
Definition page_83 (type qualifier : Z) (descriptors : bytes) : bytes :=
  ((type + 32 * qualifier) :: 131 :: be_bytes 2 (zlen descriptors) ++ descriptors)%list.
Definition page_83_object (type qualifier length : Z) (l : list designator) : pyval :=
  PObj "DeviceIdentificationVPDPageBuffer"
    [("peripheral_device", PObj "PeripheralDeviceDataBuffer" [("type", PInt type); ("qualifier", PInt qualifier)]);
     ("page_code", PInt 131); ("page_length", PInt length); ("designators_list", PList (map designator_object l))].

(** Designators the library does not know: an EUI-64 identifier of another length, an NAA
    identifier that begins with another NAA. *)
Definition unknown_designator (type : Z) (id : bytes) : Prop :=
  (type = 2 /\ ~ In (zlen id) [8; 12; 16]) \/
  (type = 3 /\ exists b r, id = b :: r /\ ~ In (b / 16) [2; 3; 5; 6]).
