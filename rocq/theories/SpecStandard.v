(** Specification of standard INQUIRY data that a program builds, and of what is read back from
    them, written from SPC-4 6.4.2 (SPC-5 for some flags) with the attribute names of the
    library.  Models no code of /repo. *)
From Coq Require Import String ZArith List Bool.
From Verif Require Import Base Instruct Command SpecDevice SpecLayout SpecPages SpecVpd Pages.
Import ListNotations.
Local Open Scope string_scope.
Local Open Scope list_scope.
Local Open Scope Z_scope.

(** What a program assigns: the peripheral device, the numbers by name, three texts, and possibly an
    extension ([extended], Pages.v, holds its attributes). *)
Record inquiry_content := Content {
  i_type : Z; i_qualifier : Z; i_numbers : attributes;
  i_vendor : bytes; i_product : bytes; i_revision : bytes; i_extended : option extended }.

(** * The bytes *)

(** Bytes 36 and following: 20 vendor specific bytes, the SPI-5 flags, a reserved byte, the version
    descriptors, and, from byte 96, further vendor specific bytes. *)
Definition extension (e : extended) : bytes :=
  vendor_specific_1 e ++ zeros (20 - length (vendor_specific_1 e)) ++
  [ius e + 2 * qas e + 4 * clocking e; 0] ++
  flat_map (be_bytes 2) (version_descriptors e) ++
  match vendor_specific_2 e with
  | None => []
  | Some v => zeros (38 - 2 * length (version_descriptors e)) ++ v
  end.
Definition extension_of (c : inquiry_content) : bytes :=
  match i_extended c with None => [] | Some e => extension e end.
(** Texts are left-aligned and padded with blanks. *)
Definition blanks (n : nat) (s : bytes) : bytes := s ++ repeat 32 (n - length s).
Definition standard_bytes (c : inquiry_content) : bytes :=
  let n k := attr k (i_numbers c) in
  [i_type c + 32 * i_qualifier c;
   64 * n "cong" + 128 * n "rmb";
   n "version";
   n "response_data_format" + 16 * n "hisup" + 32 * n "normaca";
   31 + zlen (extension_of c);
   n "protect" + 8 * n "threepc" + 16 * n "tpgs" + 64 * n "acc" + 128 * n "sccs";
   n "addr16" + 16 * n "multi_p" + 64 * n "enc_serv";
   2 * n "cmd_que" + 16 * n "sync" + 32 * n "wbus16"] ++
  blanks 8 (i_vendor c) ++ blanks 16 (i_product c) ++ blanks 4 (i_revision c) ++ extension_of c.

(** * Which contents can be packed *)

Definition loc_bits (l : loc) : Z :=
  match l with Num a b => 8 * Z.of_nat (b - a) | Bits _ _ w => Z.of_nat w | _ => 0 end.
(** Every number is given and fits its place; ADDITIONAL LENGTH is computed. *)
Definition numbers_fit (numbers : attributes) : Prop := forall n l, In (n, l) standard_inquiry_layout ->
  n <> "additional_length" -> exists v, lookup n numbers = Some v /\ below (loc_bits l) v.
Definition extension_fits (e : extended) : Prop :=
  below 1 (ius e) /\ below 1 (qas e) /\ below 2 (clocking e) /\ Forall (below 16) (version_descriptors e).
Definition content_fits (c : inquiry_content) : Prop :=
  below 5 (i_type c) /\ below 3 (i_qualifier c) /\ numbers_fit (i_numbers c) /\
  (length (i_vendor c) <= 8 /\ length (i_product c) <= 16 /\ length (i_revision c) <= 4)%nat /\
  match i_extended c with None => True | Some e => extension_fits e end /\
  zlen (extension_of c) <= 224.
(** The two parts of the extension with a fixed place do not exceed it. *)
Definition in_place (c : inquiry_content) : Prop :=
  match i_extended c with
  | None => True
  | Some e => (length (vendor_specific_1 e) <= 20 /\ length (version_descriptors e) <= 8)%nat
  end.
(** The bytes given are bytes. *)
Definition content_ok (c : inquiry_content) : Prop :=
  bytes_ok (i_vendor c) /\ bytes_ok (i_product c) /\ bytes_ok (i_revision c) /\
  match i_extended c with
  | None => True
  | Some e => bytes_ok (vendor_specific_1 e) /\ match vendor_specific_2 e with None => True | Some v => bytes_ok v end
  end.

(** * What is read back *)

(** Vendor specific bytes are filled up with zeros; an empty list of version descriptors is
    read as None, and as eight times zero if other bytes follow; so are missing descriptors. *)
Definition extension_read (e : extended) : pyval :=
  PObj "StandardInquiryExtendedDataBuffer"
    [("vendor_specific_1", PBytes (vendor_specific_1 e ++ zeros (20 - length (vendor_specific_1 e))));
     ("ius", PInt (ius e)); ("qas", PInt (qas e)); ("clocking", PInt (clocking e));
     ("version_descriptors",
        match vendor_specific_2 e, version_descriptors e with
        | None, [] => PNone
        | None, l => PList (map PInt l)
        | Some _, l => PList (map PInt (l ++ repeat 0 (8 - length l)))
        end);
     ("vendor_specific_2", match vendor_specific_2 e with Some (b :: r) => PBytes (b :: r) | _ => PNone end)].
Definition content_read (c : inquiry_content) : pyval :=
  PObj "StandardInquiryDataBuffer"
    (("peripheral_device", PObj "PeripheralDeviceDataBuffer" [("type", PInt (i_type c)); ("qualifier", PInt (i_qualifier c))])
     :: map (fun e => (fst e, PInt (if String.eqb (fst e) "additional_length" then 31 + zlen (extension_of c)
                                    else attr (fst e) (i_numbers c)))) standard_inquiry_layout ++
     [("t10_vendor_identification", PBytes (i_vendor c)); ("product_identification", PBytes (i_product c));
      ("product_revision_level", PBytes (i_revision c));
      ("extended", match i_extended c with None => PNone | Some e => extension_read e end)]).
Definition no_padding (c : inquiry_content) : Prop :=
  ~ ends_in_padding (i_vendor c) /\ ~ ends_in_padding (i_product c) /\ ~ ends_in_padding (i_revision c).

(** * Data of a device, read and packed again *)

(** The content read from data (C54). *)
Definition content_of (buf : bytes) : inquiry_content :=
  Content (bf 0 0 5 buf) (bf 0 5 3 buf)
    (map (fun e => (fst e, loc_value (snd e) buf)) standard_inquiry_layout)
    (strip (slice 8 16 buf)) (strip (slice 16 32 buf)) (strip (slice 32 36 buf))
    (if 31 <? ub 4 5 buf then
       Some (Extended (slice 36 56 buf) (bf 56 0 1 buf) (bf 56 1 1 buf) (bf 56 2 2 buf)
               (map (fun k => version_descriptor k buf) (seq 0 (Nat.min 8 ((length buf - 58) / 2))))
               (if (97 <=? length buf)%nat then Some (slice 96 (length buf) buf) else None))
     else None).
(** Bits and bytes that are reserved, obsolete or unused by the library. *)
Definition unused_bits : list (nat * nat * nat) :=
  [(1, 0, 6); (3, 6, 2); (5, 1, 2); (6, 1, 3); (6, 5, 1); (6, 7, 1); (7, 0, 1); (7, 2, 2); (7, 6, 2)]%nat.
Definition blank_padded (s : bytes) : Prop := blanks (length s) (strip s) = s.
(** Complete data of a device that leaves those at zero. *)
Definition plain (buf : bytes) : Prop :=
  bytes_ok buf /\ zlen buf = 5 + ub 4 5 buf /\
  (forall k lo w, In (k, lo, w) unused_bits -> bf k lo w buf = 0) /\
  blank_padded (slice 8 16 buf) /\ blank_padded (slice 16 32 buf) /\ blank_padded (slice 32 36 buf) /\
  (length buf = 36%nat \/
   (60 <= length buf)%nat /\ bf 56 4 4 buf = 0 /\ byte_at 57 buf = 0 /\
   ((length buf <= 74)%nat /\ Nat.even (length buf) = true \/
    (97 <= length buf)%nat /\ slice 74 96 buf = zeros 22)).
