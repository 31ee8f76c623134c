(** Specification of further INQUIRY pages and of the page dispatch, written from SPC-4 with
    the attribute names of the library.  Models no code of /repo. *)
From Coq Require Import String ZArith List Bool.
From Verif Require Import Base Instruct SpecDevice SpecLayout SpecPages.
Import ListNotations.
Local Open Scope string_scope.
Local Open Scope Z_scope.

(** * Standard INQUIRY data beyond the fixed part, SPC-4 6.4.2 *)

(** The bytes of the data that are there and that ADDITIONAL LENGTH (byte 4) announces. *)
Definition inquiry_end (buf : bytes) : nat := Nat.min (length buf) (Z.to_nat (ub 4 5 buf) + 5).
(** VERSION DESCRIPTOR fields from byte 58, at most eight. *)
Definition version_descriptor (k : nat) (buf : bytes) : Z := ub (58 + 2 * k) (60 + 2 * k) buf.
Definition when (c : bool) (v : pyval) : pyval := if c then v else PNone.
Definition extended_object (buf : bytes) : pyval :=
  let n := inquiry_end buf in
  PObj "StandardInquiryExtendedDataBuffer"
    [("vendor_specific_1", PBytes (slice 36 (Nat.min 56 n) buf));
     ("ius", when (57 <=? n)%nat (PInt (bf 56 0 1 buf)));
     ("qas", when (57 <=? n)%nat (PInt (bf 56 1 1 buf)));
     ("clocking", when (57 <=? n)%nat (PInt (bf 56 2 2 buf)));
     ("version_descriptors",
        when (60 <=? n)%nat (PList (map (fun k => PInt (version_descriptor k buf)) (seq 0 (Nat.min 8 ((n - 58) / 2))))));
     ("vendor_specific_2", when (97 <=? n)%nat (PBytes (slice 96 n buf)))].
Definition standard_inquiry_object (buf : bytes) : pyval :=
  PObj "StandardInquiryDataBuffer"
    (peripheral_value buf :: layout_values standard_inquiry_layout buf ++
     [("t10_vendor_identification", PBytes (strip (slice 8 16 buf)));
      ("product_identification", PBytes (strip (slice 16 32 buf)));
      ("product_revision_level", PBytes (strip (slice 32 36 buf)));
      ("extended", when (31 <? ub 4 5 buf) (extended_object buf))])%list.

(** * Other VPD pages, SPC-4 7.8 *)

(** The header of pages 00h and 80h with the length in byte 3. *)
Definition short_header (buf : bytes) : attrs :=
  [peripheral_value buf; ("page_code", PInt (ub 1 2 buf)); ("page_length", PInt (ub 3 4 buf))].
Definition serial_number_object (buf : bytes) : pyval :=
  PObj "UnitSerialNumberVPDPageBuffer"
    (short_header buf ++ [("product_serial_number", PBytes (strip (slice 4 (4 + Z.to_nat (ub 3 4 buf)) buf)))])%list.
Definition supported_pages_object (buf : bytes) : pyval :=
  PObj "SupportedVPDPagesBuffer"
    (short_header buf ++ [("vpd_parameters", PList (map PInt (slice 4 (4 + Z.to_nat (ub 3 4 buf)) buf)))])%list.
Definition unknown_page_object (buf : bytes) : pyval :=
  PObj "UnknownVPDPageBuffer"
    [peripheral_value buf; ("page_code", PInt (ub 1 2 buf)); ("page_length", PInt (ub 2 4 buf));
     ("page_data", PList (map PInt (slice 4 (4 + Z.to_nat (ub 2 4 buf)) buf)))].
(** The unit serial number page of a device with this serial number. *)
Definition page_80 (type qualifier : Z) (serial : bytes) : bytes :=
  (type + 32 * qualifier) :: 128 :: 0 :: zlen serial :: serial.

(** * Page dispatch *)

(** The VPD pages the library knows: page code, allocation length, class of the result. *)
Definition known_vpd_pages : list (Z * (Z * string)) :=
  [(0, (252, "SupportedVPDPagesBuffer")); (128, (252, "UnitSerialNumberVPDPageBuffer"));
   (131, (252, "DeviceIdentificationVPDPageBuffer")); (137, (1024, "AtaInformationVPDPageBuffer"));
   (176, (252, "BlockLimitsVPDPageBuffer")); (178, (252, "LogicalBlockProvisioningVPDPageBuffer"));
   (192, (252, "VeritasVPDPageBuffer"))].
Fixpoint known_page (code : Z) (l : list (Z * (Z * string))) : option (Z * string) :=
  match l with [] => None | (c, x) :: r => if code =? c then Some x else known_page code r end.
Definition vpd_page (code : Z) : Z * string :=
  match known_page code known_vpd_pages with Some x => x | None => (2048, "UnknownVPDPageBuffer") end.
