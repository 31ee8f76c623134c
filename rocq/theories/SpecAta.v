(** Specification of the ATA Information VPD page, SAT-3 12.4.2, with the attribute names of
    the library.  Models no code of /repo. *)
From Coq Require Import String ZArith List Bool.
From Verif Require Import Base Instruct SpecDevice SpecLayout SpecPages.
Import ListNotations.
Local Open Scope string_scope.
Local Open Scope Z_scope.

(** Words [a] to [b - 1] of the IDENTIFY DEVICE data, which begin at byte 60 of the page,
    as text: the first character of a word is in its second byte. *)
Definition identify_text (a b : nat) (page : bytes) : bytes :=
  flat_map (fun w => slice (60 + 2 * w + 1) (60 + 2 * w + 2) page ++ slice (60 + 2 * w) (60 + 2 * w + 1) page)%list
    (seq a (b - a)).

(** The attributes, with the words of the model number as parameter (ATA: 27 to 46). *)
Definition identify_object (model_end : nat) (page : bytes) : pyval :=
  PObj "AtaIdentifyDevice"
    [("serial_number", PBytes (strip (identify_text 10 20 page)));
     ("firmware_revision", PBytes (strip (identify_text 23 27 page)));
     ("model_number", PBytes (strip (identify_text 27 model_end page)))].

(** The device signature is a register FIS that begins at byte 36 of the page.  The library
    takes whole bytes as signed numbers, the count as a big-endian number, and the bytes of the
    address as a text. *)
Definition signature_object (page : bytes) : pyval :=
  PObj "DeviceSignature"
    [("transport_id", PInt (sb 36 37 page)); ("pm_port", PInt (bf 37 0 4 page)); ("interrupt", PInt (bf 37 6 1 page));
     ("status", PInt (sb 38 39 page)); ("error", PInt (sb 39 40 page));
     ("lba", PBytes (strip (slice 40 43 page ++ slice 44 47 page)%list));
     ("device", PInt (sb 43 44 page)); ("sector_count", PInt (sb 48 50 page))].

Definition ata_object (model_end : nat) (page : bytes) : pyval :=
  PObj "AtaInformationVPDPageBuffer"
    [peripheral_value page; ("page_code", PInt (sb 1 2 page)); ("page_length", PInt (sb 2 4 page));
     ("sat_vendor_identification", PBytes (strip (slice 8 16 page)));
     ("sat_product_identification", PBytes (strip (slice 16 32 page)));
     ("sat_product_revision_level", PBytes (strip (slice 32 36 page)));
     ("device_signature", signature_object page); ("command_code", PInt (sb 56 57 page));
     ("identify_device", identify_object model_end page)].

(** The count of a register FIS: its low byte comes first (byte 12 of the FIS). *)
Definition fis_count (page : bytes) : Z := byte_at 48 page + 256 * byte_at 49 page.
(** An attribute of an attribute. *)
Definition nested (a b : string) (o : pyval) : option pyval :=
  match o with
  | PObj _ l => match lookup a l with Some (PObj _ m) => lookup b m | _ => None end
  | _ => None
  end.
