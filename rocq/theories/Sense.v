(** Sense data: src/infi/asi/sense/__init__.py and asc.py. *)
From Coq Require Import String Ascii ZArith List Bool DecimalString.
From Verif Require Import Base OsCommon Instruct Command AscTable.
Import ListNotations.
Local Open Scope string_scope.
Local Open Scope Z_scope.

(** SCSI_SENSE_KEY as used by MappingField, sense/__init__.py:6-21: number to name. *)
Definition scsi_sense_key : list (Z * string) :=
  [(0, "NO_SENSE"); (1, "RECOVERED_ERROR"); (2, "NOT_READY"); (3, "MEDIUM_ERROR"); (4, "HARDWARE_ERROR");
   (5, "ILLEGAL_REQUEST"); (6, "UNIT_ATTENTION"); (7, "DATA_PROTECT"); (8, "BLANK_CHECK"); (9, "VENDOR_SPECIFIC");
   (10, "COPY_ABORTED"); (11, "ABORTED_COMMAND"); (12, "RESERVED"); (13, "VOLUME_OVERFLOW"); (14, "MISCOMPARE");
   (15, "COMPLETED")].
(** As above: sense/__init__.py:6-21. *)
Fixpoint key_name (k : Z) (l : list (Z * string)) : result pyval :=
  match l with
  | [] => Err EInstruct
  | (n, s) :: r => if n =? k then Ok (PText s) else key_name k r
  end.

(** A Struct class whose field sense_key is a MappingField, sense/__init__.py:58, 73. *)
Definition sense_reader (f : field) : string * reader :=
  (f_name f,
   if String.eqb (f_name f) "sense_key"
   then (fun _ buf => do v <- read_int false (f_bits f) buf; key_name v scsi_sense_key)
   else r_uint (f_bits f)).

(** SCSISenseResponseCode, sense/__init__.py:47-51, and AdditionalSenseCode, asc.py:678-682.
    The attributes of these nested objects are written with a dot. *)
Definition response_code_item : item :=
  BitFields [BitField "response_code.code" 7 Required; BitFlag "response_code.valid" Required].
(** As above: sense/__init__.py:47-51; asc.py:678-682. *)
Definition asc_items : list item :=
  [UBInt 1 "additional_sense_code.code" Required; UBInt 1 "additional_sense_code.qualifier" Required].

(** SCSISenseDataFixed._fields_, sense/__init__.py:69-89. *)
Definition fixed_items : list item :=
  ([response_code_item; Padding 1;
    BitFields [BitField "sense_key" 4 Required; BitPadding 1; BitFlag "ili" Required; BitFlag "eom" Required;
               BitFlag "filemark" Required];
    UBInt 4 "information" Required; UBInt 1 "additional_sense_length" Required;
    UBInt 4 "command_specific_information" Required] ++ asc_items ++
   [UBInt 1 "field_replaceable_unit_code" Required;
    BitFields [BitField "sense_key_specific_high" 7 Required; BitFlag "sksv" Required;
               BitField "sense_key_specific_low" 8 Required]])%list.

(** SCSISenseDataFixed.create_from_string, sense/__init__.py:96. *)
Definition sense_fixed (buf : bytes) : result pyval :=
  if (struct_size fixed_items <=? length buf)%nat
  then unpack (PyClass "SCSISenseDataFixed" (map sense_reader (struct_fields 0 fixed_items))) buf
  else Err EInstruct.

(** SCSISenseDataDescriptorBased._fields_ up to the descriptors, sense/__init__.py:55-62. *)
Definition descriptor_items : list item :=
  ([response_code_item; BitFields [BitField "sense_key" 4 Required; BitPadding 4]] ++ asc_items ++ [Padding 2])%list.

(** One descriptor, chosen by its first byte (sense/__init__.py:43-45, 64): the information
    descriptor (31-41), whose length byte must be the constant 10, or the generic one
    (24-28). *)
Definition sense_descriptor : element := fun buf =>
  match buf with
  | 0 :: 10 :: rest =>
      if (length rest <? 10)%nat then Err EInstruct
      else Ok (PObj "SCSISenseDataDescriptorInformation"
                 [("valid", PInt (byte_at 0 rest / 128)); ("information", PBytes (slice 2 10 rest))], 12%nat)
  | 0 :: _ => Err EInstruct
  | t :: n :: rest =>
      if zlen rest <? n then Err EInstruct
      else Ok (PObj "SCSISenseDataGenericDescriptor"
                 [("descriptor_type", PInt t); ("data", PBytes (firstn (Z.to_nat n) rest))], S (S (Z.to_nat n)))
  | _ => Err EInstruct
  end.

(** SCSISenseDataDescriptorBased.create_from_string, sense/__init__.py:54-65 and 98: the
    byte right after the items above is taken as the length of the descriptors. *)
Definition sense_descriptors (buf : bytes) : result pyval :=
  if (length buf <? S (struct_size descriptor_items))%nat then Err EInstruct
  else
    do l <- unpack_fields (map sense_reader (struct_fields 0 descriptor_items)) [] buf;
    let n := byte_at 6 buf in
    if zlen buf <? 7 + n then Err EInstruct
    else do ds <- read_list sense_descriptor (slice 7 (Z.to_nat (7 + n)) buf);
         Ok (PObj "SCSISenseDataDescriptorBased" (l ++ [("descriptors", PList ds)])%list).

(** get_sense_object_from_buffer, sense/__init__.py:92-101. *)
Definition sense_object (buf : bytes) : result pyval :=
  match buf with
  | [] => Err EInstruct
  | b :: _ =>
      let code := b mod 128 in
      if (code =? 112) || (code =? 113) then sense_fixed buf
      else if (code =? 114) || (code =? 115) then sense_descriptors buf
      else Ok PNone
  end.

(** What the executers need of it: whether it raises, __init__.py:156. *)
Definition parse_sense (buf : bytes) : result unit := do _ <- sense_object buf; Ok tt.

(** * asc.py *)

(** The format %2X of a number below 256 (asc.py:672, 675, 676): padded with a blank. *)
Definition hex_digit (d : Z) : string := substring (Z.to_nat d) 1 "0123456789ABCDEF".
(** As above: asc.py:672, 675, 676. *)
Definition hex2 (q : Z) : string := (if q <? 16 then " " else hex_digit (q / 16)) ++ hex_digit (q mod 16).

(** range(a, b). [sense/asc.py:671, 674] *)
Definition zrange (a b : Z) : list Z := map (fun i => a + Z.of_nat i) (seq 0 (Z.to_nat (b - a))).

(** ASC_CODES as the sequence of its assignments, asc.py:6-676; a later assignment to the
    same key replaces an earlier one. *)
Definition asc_assignments : list (Z * Z * string) :=
  (asc_table ++
   map (fun i => (64, i, ("DIAGNOSTIC FAILURE ON COMPONENT " ++ hex2 i)%string)) (zrange 128 255) ++
   flat_map (fun i => [(77, i, ("TAGGED OVERLAPPED COMMANDS (" ++ hex2 i ++ " = TASK TAG)")%string);
                       (112, i, ("DECOMPRESSION EXCEPTION SHORT ALGORITHM ID OF " ++ hex2 i)%string)]) (zrange 0 255))%list.
(** As above: asc.py:6-676. *)
Fixpoint assigned_last (c q : Z) (l : list (Z * Z * string)) (found : option string) : option string :=
  match l with
  | [] => found
  | (c', q', t) :: r => assigned_last c q r (if (c' =? c) && (q' =? q) then Some t else found)
  end.

(** str(n) of a number. [sense/asc.py:671-680] *)
Definition decimal (n : Z) : string := NilZero.string_of_int (Z.to_int n).

(** AdditionalSenseCode.code_name, asc.py:684-687. *)
Definition code_name (c q : Z) : string :=
  match assigned_last c q asc_assignments None with
  | Some t => t
  | None => "Unknown code, qualifier: " ++ decimal c ++ ", " ++ decimal q
  end.
