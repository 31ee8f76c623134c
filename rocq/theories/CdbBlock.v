(** The block commands: src/infi/asi/cdb/read.py, write.py, write_same.py,
    compare_and_write.py, unmap.py, read_capacity.py (line numbers refer to these files).
    Default values of constructor arguments are not modelled: the functions below take
    all arguments. *)
From Coq Require Import String ZArith List Bool.
From Verif Require Import Base OsCommon Instruct Command.
Import ListNotations.
Local Open Scope string_scope.
Local Open Scope Z_scope.

(** * read.py *)

(** Read6Command._fields_, read.py:17-26. *)
Definition read6_fields : list item :=
  [opcode 8;
   BitFields [BitField "logical_block_address__msb" 5 Required; BitPadding 3];
   UBInt 2 "logical_block_address__lsb" Required;
   UBInt 1 "transfer_length" Required;
   control].

(** Read6Command.__init__ and execute, read.py:28-45. *)
Definition read6 (lba tl bs : Z) : result cdb_object :=
  do _ <- assert_ (lba <? 2 ^ 21);
  do _ <- assert_ (tl <? 2 ^ 8);
  Ok (CdbObject
        [("transfer_length", tl);
         ("logical_block_address__msb", Z.shiftr lba 16);
         ("logical_block_address__lsb", Z.land lba 65535)]
        (pack_struct read6_fields)
        (fun a cdb =>
           let read_length := bs * attr "transfer_length" a in
           ReadCmd cdb (if read_length =? 0 then 256 * 512 else read_length))
        raw_result).

(** The second byte of most commands, e.g. read.py:50-57. *)
Definition flags (protect : string) : item :=
  BitFields [BitPadding 1; BitFlag "fua_nv" (Default 0); BitPadding 1; BitFlag "fua" (Default 0);
             BitFlag "dpo" (Default 0); BitField protect 3 (Default 0)].
(** e.g. read.py:59-61. *)
Definition group_number : item := BitFields [BitField "group_number" 5 (Default 0); BitPadding 3].

(** Read10Command._fields_, read.py:48-64. *)
Definition read10_fields : list item :=
  [opcode 40; flags "rdprotect"; UBInt 4 "logical_block_address" Required; group_number;
   UBInt 2 "transfer_length" Required; control].

(** The request of execute, read.py:76, 108, 142. *)
Definition read_request (bs : Z) (a : attributes) (cdb : bytes) : scsi_command :=
  ReadCmd cdb (bs * attr "transfer_length" a).

(** Attributes set by the constructors, read.py:68-70 etc. *)
Definition block_attrs (lba tl : Z) : attributes :=
  [("logical_block_address", lba); ("transfer_length", tl)].

(** Read10Command.__init__ and execute, read.py:66-77. *)
Definition read10 (lba tl bs : Z) : result cdb_object :=
  do _ <- assert_ (lba <? 2 ^ 32);
  do _ <- assert_ (tl <? 2 ^ 16);
  Ok (CdbObject (block_attrs lba tl) (pack_struct read10_fields) (read_request bs) raw_result).

(** Read12Command._fields_, read.py:81-96. *)
Definition read12_fields : list item :=
  [opcode 168;
   BitFields [BitFlag "RelAdr" (Default 0); BitPadding 2; BitFlag "fua" (Default 0); BitFlag "dpo" (Default 0);
              BitField "reserved" 3 (Default 0)];
   UBInt 4 "logical_block_address" Required; UBInt 4 "transfer_length" Required;
   BitFields [BitPadding 8]; control].

(** Read12Command.__init__ and execute, read.py:98-109. *)
Definition read12 (lba tl bs : Z) : result cdb_object :=
  do _ <- assert_ (lba <? 2 ^ 32);
  do _ <- assert_ (tl <? 2 ^ 32);
  Ok (CdbObject (block_attrs lba tl) (pack_struct read12_fields) (read_request bs) raw_result).

(** Read16Command._fields_, read.py:112-130. *)
Definition read16_fields : list item :=
  [opcode 136; flags "reserved"; UBInt 8 "logical_block_address" Required;
   UBInt 4 "transfer_length" Required;
   BitFields [BitField "group_number" 5 (Default 0); BitPadding 2; BitFlag "mmc4" (Default 0)]; control].

(** Read16Command.__init__ and execute, read.py:132-143. *)
Definition read16 (lba tl bs : Z) : result cdb_object :=
  do _ <- assert_ (lba <? 2 ^ 64);
  do _ <- assert_ (tl <? 2 ^ 32);
  Ok (CdbObject (block_attrs lba tl) (pack_struct read16_fields) (read_request bs) raw_result).

(** * write.py *)

(** [executer.call(SCSIWriteCommand(datagram, self.buffer))], e.g. write.py:49. *)
Definition write_request (buffer : bytes) (_ : attributes) (cdb : bytes) : scsi_command := WriteCmd cdb buffer.

(** Write6Command._fields_, write.py:18-27. *)
Definition write6_fields : list item :=
  [opcode 10;
   BitFields [BitField "logical_block_address__msb" 5 Required; BitPadding 3];
   UBInt 2 "logical_block_address__lsb" Required;
   UBInt 1 "transfer_length" Required;
   control].

(** Write6Command.__init__ and execute, write.py:29-50. *)
Definition write6 (lba : Z) (buffer : bytes) (bs : Z) : result cdb_object :=
  do _ <- assert_ (lba <? 2 ^ 21);
  do m <- py_mod (zlen buffer) bs;
  do _ <- assert_ (m =? 0);
  do num_blocks <- py_div (zlen buffer) bs;
  do _ <- assert_ ((0 <? num_blocks) && (num_blocks <=? 256));
  Ok (CdbObject
        [("transfer_length", if num_blocks =? 256 then 0 else num_blocks);
         ("logical_block_address__msb", Z.shiftr lba 16);
         ("logical_block_address__lsb", Z.land lba 65535)]
        (pack_struct write6_fields) (write_request buffer) raw_result).

(** Write10Command._fields_, write.py:53-69. *)
Definition write10_fields : list item :=
  [opcode 42; flags "wrprotect"; UBInt 4 "logical_block_address" Required; group_number;
   UBInt 2 "transfer_length" Required; control].

(** Write10Command.__init__ and execute, write.py:71-84. *)
Definition write10 (lba : Z) (buffer : bytes) (bs : Z) : result cdb_object :=
  do tl <- py_div (zlen buffer) bs;
  do m <- py_mod (zlen buffer) bs;
  do _ <- assert_ (m =? 0);
  do _ <- assert_ (lba <? 2 ^ 32);
  do _ <- assert_ ((0 <=? tl) && (tl <? 2 ^ 16));
  Ok (CdbObject (block_attrs lba tl) (pack_struct write10_fields) (write_request buffer) raw_result).

(** Write12Command._fields_, write.py:87-103. *)
Definition write12_fields : list item :=
  [opcode 170; flags "wrprotect"; UBInt 4 "logical_block_address" Required;
   UBInt 4 "transfer_length" Required; group_number; control].

(** Write12Command.__init__ and execute, write.py:105-118. *)
Definition write12 (lba : Z) (buffer : bytes) (bs : Z) : result cdb_object :=
  do tl <- py_div (zlen buffer) bs;
  do m <- py_mod (zlen buffer) bs;
  do _ <- assert_ (m =? 0);
  do _ <- assert_ (lba <? 2 ^ 32);
  do _ <- assert_ ((0 <? tl) && (tl <? 2 ^ 32));
  Ok (CdbObject (block_attrs lba tl) (pack_struct write12_fields) (write_request buffer) raw_result).

(** Write16Command._fields_, write.py:121-137. *)
Definition write16_fields : list item :=
  [opcode 138; flags "wrprotect"; UBInt 8 "logical_block_address" Required;
   UBInt 4 "transfer_length" Required; group_number; control].

(** Write16Command.__init__ and execute, write.py:139-152. *)
Definition write16 (lba : Z) (buffer : bytes) (bs : Z) : result cdb_object :=
  do tl <- py_div (zlen buffer) bs;
  do m <- py_mod (zlen buffer) bs;
  do _ <- assert_ (m =? 0);
  do _ <- assert_ (lba <? 2 ^ 64);
  do _ <- assert_ ((0 <=? tl) && (tl <? 2 ^ 32));
  Ok (CdbObject (block_attrs lba tl) (pack_struct write16_fields) (write_request buffer) raw_result).

(** * write_same.py *)

(** Attributes set by the constructors, write_same.py:37-39, 70-72. *)
Definition same_attrs (lba n : Z) : attributes := [("logical_block_address", lba); ("number_of_blocks", n)].

(** WriteSame10Command._fields_, write_same.py:17-32. *)
Definition write_same10_fields : list item :=
  [opcode 65;
   BitFields [BitPadding 1; BitFlag "lbdata" (Default 0); BitFlag "pbdata" (Default 0); BitPadding 2;
              BitField "wrprotect" 3 (Default 0)];
   UBInt 4 "logical_block_address" Required; group_number; UBInt 2 "number_of_blocks" Required; control].

(** WriteSame10Command.__init__ and execute, write_same.py:34-46; block_size is unused. *)
Definition write_same10 (lba : Z) (buffer : bytes) (n block_size : Z) : result cdb_object :=
  do _ <- assert_ (zlen buffer mod 512 =? 0);
  do _ <- assert_ (lba <? 2 ^ 32);
  do _ <- assert_ (n <? 2 ^ 16);
  Ok (CdbObject (same_attrs lba n) (pack_struct write_same10_fields) (write_request buffer) raw_result).

(** WriteSame16Command._fields_, write_same.py:50-66. *)
Definition write_same16_fields : list item :=
  [opcode 147;
   BitFields [BitPadding 1; BitFlag "lbdata" (Default 0); BitFlag "pbdata" (Default 0);
              BitFlag "unmap" (Default 0); BitPadding 1; BitField "wrprotect" 3 (Default 0)];
   UBInt 8 "logical_block_address" Required; UBInt 4 "number_of_blocks" Required; group_number; control].

(** WriteSame16Command.__init__ and execute, write_same.py:67-79; block_size is unused. *)
Definition write_same16 (lba : Z) (buffer : bytes) (n block_size : Z) : result cdb_object :=
  do _ <- assert_ (zlen buffer mod 512 =? 0);
  do _ <- assert_ (lba <? 2 ^ 64);
  do _ <- assert_ (n <? 2 ^ 32);
  Ok (CdbObject (same_attrs lba n) (pack_struct write_same16_fields) (write_request buffer) raw_result).

(** * compare_and_write.py *)

(** CompareAndWriteCommand._fields_, compare_and_write.py:16-33. *)
Definition compare_and_write_fields : list item :=
  [opcode 137; flags "wrprotect"; UBInt 8 "logical_block_address" Required; Padding 3;
   UBInt 1 "number_of_logical_blocks" Required; group_number; control].

(** CompareAndWriteCommand.__init__ and execute, compare_and_write.py:35-50: the range
    checks are made by execute. *)
Definition compare_and_write (lba : Z) (buffer : bytes) (n bs : Z) : result cdb_object :=
  do _ <- py_div (zlen buffer) bs;
  do m <- py_mod (zlen buffer) bs;
  do _ <- assert_ (m =? 0);
  Ok (CdbObject [("logical_block_address", lba); ("number_of_logical_blocks", n)]
        (fun a => do _ <- assert_ (attr "logical_block_address" a <? 2 ^ 64);
                  do _ <- assert_ (attr "number_of_logical_blocks" a <? 2 ^ 8);
                  pack_struct compare_and_write_fields a)
        (write_request buffer) raw_result).

(** * unmap.py *)

(** UnmapParameterListBlock, unmap.py:57-68. *)
Definition unmap_block_fields : list item :=
  [UBInt 8 "unmap_lba" Required; UBInt 4 "number_of_logical_blocks" Required; Padding 4].
(** As above: unmap.py:57-68. *)
Definition unmap_block (range : Z * Z) : result bytes :=
  pack_struct unmap_block_fields [("unmap_lba", fst range); ("number_of_logical_blocks", snd range)].

(** UnmapParameterListHeader, unmap.py:43-54. *)
Definition unmap_header_fields : list item :=
  [UBInt 2 "unmap_data_length" Required; UBInt 2 "unmap_block_descriptor_data_length" Required; Padding 4].
(** As above: unmap.py:43-54. *)
Definition unmap_header (data_length : Z) : result bytes :=
  pack_struct unmap_header_fields
    [("unmap_data_length", data_length + 7); ("unmap_block_descriptor_data_length", data_length)].

(** The loop over the ranges, unmap.py:25-31. *)
Fixpoint unmap_blocks (ranges : list (Z * Z)) : result bytes :=
  match ranges with
  | [] => Ok []
  | r :: rest => do b <- unmap_block r; do bs <- unmap_blocks rest; Ok (b ++ bs)%list
  end.

(** UnmapCommand._fields_, unmap.py:12-21. *)
Definition unmap_fields : list item :=
  [opcode 66; Padding 5; BitFields [BitField "GROUP_NUMBER" 5 (Default 0); BitPadding 3];
   UBInt 2 "parameter_list_length" (Default 0); control].

(** UnmapCommand.__init__ and execute, unmap.py:23-40. *)
Definition unmap (ranges : list (Z * Z)) : result cdb_object :=
  do block_stream <- unmap_blocks ranges;
  do header <- unmap_header (zlen block_stream);
  let buffer := (header ++ block_stream)%list in
  Ok (CdbObject [("parameter_list_length", zlen buffer)] (pack_struct unmap_fields)
        (write_request buffer) raw_result).

(** * read_capacity.py *)

(** ReadCapacity10Command._fields_, read_capacity.py:14-24. *)
Definition read_capacity10_fields : list item :=
  [opcode 37; Padding 1; UBInt 4 "logical_block_address" Required; Padding 2;
   BitFields [BitFlag "pmi" (Default 0); BitPadding 7]; control].
(** ReportReadCapacityData10, read_capacity.py:37-41. *)
Definition read_capacity10_data : list item :=
  [UBInt 4 "last_logical_block_address" Required; UBInt 4 "block_length_in_bytes" Required].
(** ReadCapacity10Command.__init__ and execute, read_capacity.py:26-34. *)
Definition read_capacity10 (lba pmi : Z) : result cdb_object :=
  Ok (CdbObject [("logical_block_address", lba); ("pmi", pmi)] (pack_struct read_capacity10_fields)
        (fun _ cdb => ReadCmd cdb 8)
        (parsed (unpack_struct "ReportReadCapacityData10" read_capacity10_data))).

(** ReadCapacity16Command._fields_, read_capacity.py:45-58. *)
Definition read_capacity16_fields : list item :=
  [opcode 158; BitFields [BitField "service_action" 5 (Default 16); BitPadding 3];
   UBInt 8 "logical_block_address" Required; UBInt 4 "allocation_length" Required;
   BitFields [BitFlag "pmi" (Default 0); BitPadding 7]; control].
(** ReportReadCapacityData16, read_capacity.py:71-91. *)
Definition read_capacity16_data : list item :=
  [UBInt 8 "last_logical_block_address" Required; UBInt 4 "block_length_in_bytes" Required;
   BitFields [BitFlag "prot_en" (Default 0); BitField "p_type" 3 (Default 0); BitPadding 4];
   BitFields [BitField "logical_blocks_per_physical_block" 4 (Default 0); BitField "p_i_exponent" 4 (Default 0)];
   BitFields [BitField "lowest_aligned_lba_msb" 6 (Default 0); BitFlag "troz" (Default 0); BitFlag "tpe" (Default 0)];
   UBInt 1 "lowest_aligned_lba_lsb" Required; Padding 16].
(** ReadCapacity16Command.__init__ and execute, read_capacity.py:60-68. *)
Definition read_capacity16 (lba pmi : Z) : result cdb_object :=
  Ok (CdbObject [("logical_block_address", lba); ("pmi", pmi); ("allocation_length", 32)]
        (pack_struct read_capacity16_fields)
        (fun a cdb => ReadCmd cdb (attr "allocation_length" a))
        (parsed (unpack_struct "ReportReadCapacityData16" read_capacity16_data))).
