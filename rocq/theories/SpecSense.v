(** Specification of sense data (SPC-4, 4.5), and of the texts of additional sense codes. *)
From Coq Require Import String ZArith List Bool.
From Verif Require Import Base OsCommon SpecSg SpecDevice Instruct AscTable.
Import ListNotations.
Local Open Scope string_scope.
Local Open Scope Z_scope.

(** Sense keys (SPC-4, table 43) by number. *)
Definition sense_keys : list string :=
  ["NO_SENSE"; "RECOVERED_ERROR"; "NOT_READY"; "MEDIUM_ERROR"; "HARDWARE_ERROR"; "ILLEGAL_REQUEST"; "UNIT_ATTENTION";
   "DATA_PROTECT"; "BLANK_CHECK"; "VENDOR_SPECIFIC"; "COPY_ABORTED"; "ABORTED_COMMAND"; "RESERVED"; "VOLUME_OVERFLOW";
   "MISCOMPARE"; "COMPLETED"].
Definition sense_key_text (k : Z) : pyval := PText (nth (Z.to_nat k) sense_keys "").

(** Fixed format (SPC-4, 4.5.3): response codes 70h and 71h. *)
Definition fixed_sense_object (b : bytes) : pyval :=
  PObj "SCSISenseDataFixed"
    [("response_code.code", PInt (bf 0 0 7 b)); ("response_code.valid", PInt (bf 0 7 1 b));
     ("sense_key", sense_key_text (bf 2 0 4 b)); ("ili", PInt (bf 2 5 1 b)); ("eom", PInt (bf 2 6 1 b));
     ("filemark", PInt (bf 2 7 1 b)); ("information", PInt (ub 3 7 b)); ("additional_sense_length", PInt (ub 7 8 b));
     ("command_specific_information", PInt (ub 8 12 b)); ("additional_sense_code.code", PInt (ub 12 13 b));
     ("additional_sense_code.qualifier", PInt (ub 13 14 b)); ("field_replaceable_unit_code", PInt (ub 14 15 b));
     ("sense_key_specific_high", PInt (bf 15 0 7 b)); ("sksv", PInt (bf 15 7 1 b));
     ("sense_key_specific_low", PInt (ub 16 17 b))].

(** Descriptor format (SPC-4, 4.5.2): response codes 72h and 73h. *)
Definition descriptor_sense_attrs (b : bytes) : attrs :=
  [("response_code.code", PInt (bf 0 0 7 b)); ("response_code.valid", PInt (bf 0 7 1 b));
   ("sense_key", sense_key_text (bf 1 0 4 b)); ("additional_sense_code.code", PInt (ub 2 3 b));
   ("additional_sense_code.qualifier", PInt (ub 3 4 b))].
Definition descriptor_sense_object (b : bytes) (descriptors : list pyval) : pyval :=
  PObj "SCSISenseDataDescriptorBased" (descriptor_sense_attrs b ++ [("descriptors", PList descriptors)]).
(** What a device sends: byte 4 has SDAT_OVFL, bytes 5 and 6 are reserved, byte 7 is the
    length of the descriptors that follow. *)
Definition descriptor_sense_data (code key asc ascq ovfl : Z) (descriptors : list bytes) : bytes :=
  ([code; key; asc; ascq; 128 * ovfl; 0; 0; zlen (concat descriptors)] ++ concat descriptors)%list.

(** Sense data that a conforming device sends: any fixed or vendor specific format, or
    descriptor format with the reserved byte 6 zero. *)
Definition conforming_sense (b : bytes) : Prop :=
  bytes_ok b /\ (bf 0 0 7 b = 114 \/ bf 0 0 7 b = 115 -> byte_at 6 b = 0).

(** The qualifiers that ASC 40h, 4Dh and 70h show in their text: NN in asc-num.txt. *)
Definition digits : list string := ["0"; "1"; "2"; "3"; "4"; "5"; "6"; "7"; "8"; "9"; "A"; "B"; "C"; "D"; "E"; "F"].
Definition shown_qualifier (q : Z) : string :=
  (if q <? 16 then " " else nth (Z.to_nat (q / 16)) digits "") ++ nth (Z.to_nat (q mod 16)) digits "".
Definition ranged (c q : Z) : bool :=
  (q <? 255) && ((c =? 64) && (128 <=? q) || (c =? 77) || (c =? 112)).
Definition ranged_text (c q : Z) : string :=
  if c =? 64 then "DIAGNOSTIC FAILURE ON COMPONENT " ++ shown_qualifier q
  else if c =? 77 then "TAGGED OVERLAPPED COMMANDS (" ++ shown_qualifier q ++ " = TASK TAG)"
  else "DECOMPRESSION EXCEPTION SHORT ALGORITHM ID OF " ++ shown_qualifier q.
