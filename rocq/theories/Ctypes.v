(** The ctypes structures in memory: Structure layout, to_raw() and from_string() of SGIO, SCSICMD,
    sc_passthru and SCSIPassThroughDirect, and the OVERLAPPED structure. *)
From Coq Require Import String ZArith List Bool Arith.
From Verif Require Import Base OsCommon OsLinux OsSolaris OsAix OsWin32.
Import ListNotations.
Local Open Scope string_scope.
Local Open Scope list_scope.
Local Open Scope Z_scope.

(** What ctypes takes from the platform: the sizes of pointers and of long, the alignment of long
    long, and the byte order. [linux.py:118-142, solaris.py:102-117, aix.py:246-275, win32.py:277-313] *)
Record abi : Type := Abi {
  ptr_bytes : nat;
  long_bytes : nat;
  longlong_align : nat;
  little_endian : bool
}.

(** A simple C type, or an array of bytes. [as above: linux.py:118-142, win32.py:277-313] *)
Inductive ctype : Type :=
| Scalar (size align : nat) (signed : bool)
| ByteArray (n : nat).

(** c_ubyte, c_ushort, c_short, c_int, c_uint. [linux.py:119-141, solaris.py:104-106] *)
Definition t_ubyte : ctype := Scalar 1 1 false.
(** As above: linux.py:119-141. *)
Definition t_ushort : ctype := Scalar 2 2 false.
(** As above: solaris.py:105-106. *)
Definition t_short : ctype := Scalar 2 2 true.
(** As above: linux.py:119-141. *)
Definition t_int : ctype := Scalar 4 4 true.
(** As above: linux.py:119-141. *)
Definition t_uint : ctype := Scalar 4 4 false.
(** c_ulong, c_ulonglong, c_void_p. [solaris.py:107-116, aix.py:264-274] *)
Definition t_ulong (a : abi) : ctype := Scalar (long_bytes a) (long_bytes a) false.
(** As above: aix.py:264-274. *)
Definition t_ulonglong (a : abi) : ctype := Scalar 8 (longlong_align a) false.
(** As above: linux.py:125-127. *)
Definition t_void_p (a : abi) : ctype := Scalar (ptr_bytes a) (ptr_bytes a) false.

(** Size and alignment of a type; _pack_ limits the alignment. [win32.py:278] *)
Definition size_of (t : ctype) : nat := match t with Scalar n _ _ => n | ByteArray n => n end.
(** As above: win32.py:278. *)
Definition align_of (pack : option nat) (t : ctype) : nat :=
  let n := match t with Scalar _ n _ => n | ByteArray _ => 1%nat end in
  match pack with Some p => Nat.min p n | None => n end.

(** The smallest multiple of [n] from [o] on. [layout of a Structure, e.g. linux.py:118] *)
Definition round_up (o n : nat) : nat :=
  match (o mod n)%nat with 0%nat => o | r => (o + (n - r))%nat end.

(** Offsets of the fields, end of the last one, size of the structure.
    [layout of a Structure, e.g. linux.py:118, sizeof at 213-214] *)
Fixpoint offsets (pack : option nat) (o : nat) (fs : list ctype) : list nat :=
  match fs with
  | [] => []
  | t :: r => let o' := round_up o (align_of pack t) in o' :: offsets pack (o' + size_of t) r
  end.
(** As above: linux.py:118. *)
Fixpoint fields_end (pack : option nat) (o : nat) (fs : list ctype) : nat :=
  match fs with
  | [] => o
  | t :: r => fields_end pack (round_up o (align_of pack t) + size_of t) r
  end.
(** As above: linux.py:118. *)
Definition struct_align (pack : option nat) (fs : list ctype) : nat :=
  fold_right Nat.max 1%nat (map (align_of pack) fs).
(** sizeof(cls), linux.py:213-214. *)
Definition sizeof (pack : option nat) (fs : list ctype) : nat :=
  round_up (fields_end pack 0 fs) (struct_align pack fs).

(** The value of a field. [e.g. linux.py:184-202] *)
Inductive cvalue : Type :=
| CNum (z : Z)
| CBytes (b : bytes).

(** Bytes of a field in memory, and the value read from them. [linux.py:168, 207-210] *)
Definition store (a : abi) (t : ctype) (v : cvalue) : bytes :=
  match t, v with
  | Scalar n _ _, CNum z => if little_endian a then rev (be_bytes n z) else be_bytes n z
  | ByteArray n, CBytes b => firstn n (b ++ zeros n)
  | _, _ => zeros (size_of t)
  end.
(** As above: linux.py:207-210. *)
Definition load (a : abi) (t : ctype) (b : bytes) : cvalue :=
  match t with
  | Scalar n _ signed =>
    let u := be_val (if little_endian a then rev b else b) in
    CNum (if signed then c_signed (8 * Z.of_nat n) u else u)
  | ByteArray _ => CBytes b
  end.

(** The memory of a structure that was zero before its fields were set, linux.py:180-202; to_raw(),
    linux.py:167-168, solaris.py:141-142, aix.py:302-303. *)
Fixpoint fields_raw (a : abi) (pack : option nat) (o : nat) (fs : list ctype) (vs : list cvalue) : bytes :=
  match fs, vs with
  | t :: fs', v :: vs' =>
    let o' := round_up o (align_of pack t) in
    zeros (o' - o) ++ store a t v ++ fields_raw a pack (o' + size_of t) fs' vs'
  | _, _ => []
  end.
(** As above: linux.py:167-168. *)
Definition to_raw (a : abi) (pack : option nat) (fs : list ctype) (vs : list cvalue) : bytes :=
  fields_raw a pack 0 fs vs ++ zeros (sizeof pack fs - fields_end pack 0 fs).

(** from_string(string) followed by reading all fields, linux.py:205-210, solaris.py:175-180,
    aix.py:333-338: from_buffer wants at least sizeof bytes. *)
Definition from_string (a : abi) (pack : option nat) (fs : list ctype) (buf : bytes) : result (list cvalue) :=
  if (length buf <? sizeof pack fs)%nat then Err EValue
  else Ok (map (fun p => load a (snd p) (slice (fst p) (fst p + size_of (snd p)) buf))
             (combine (offsets pack 0 fs) fs)).

(** SGIO._fields_, linux.py:119-142. *)
Definition sgio_fields (a : abi) : list (string * ctype) :=
  [("interface_id", t_int); ("dxfer_direction", t_int); ("cmd_len", t_ubyte); ("mx_sb_len", t_ubyte);
   ("iovec_count", t_ushort); ("dxfer_len", t_uint); ("dxferp", t_void_p a); ("cmdp", t_void_p a);
   ("sbp", t_void_p a); ("timeout", t_uint); ("flags", t_uint); ("pack_id", t_int); ("usr_ptr", t_void_p a);
   ("status", t_ubyte); ("masked_status", t_ubyte); ("msg_status", t_ubyte); ("sb_len_wr", t_ubyte);
   ("host_status", t_ushort); ("driver_status", t_ushort); ("resid", t_int); ("duration", t_uint);
   ("info", t_uint)].

(** SCSICMD._fields_, solaris.py:103-116. *)
Definition scsicmd_fields (a : abi) : list (string * ctype) :=
  [("uscsi_flags", t_int); ("uscsi_status", t_short); ("uscsi_timeout", t_short); ("uscsi_cdb", t_void_p a);
   ("uscsi_bufaddr", t_void_p a); ("uscsi_buflen", t_ulong a); ("uscsi_resid", t_ulong a);
   ("uscsi_cdblen", t_ubyte); ("uscsi_rqlen", t_ubyte); ("uscsi_rqstatus", t_ubyte);
   ("uscsi_rqresid", t_ubyte); ("uscsi_rqbuf", t_void_p a); ("uscsi_path_instance", t_ulong a)].

(** sc_passthru._fields_, aix.py:247-275. *)
Definition passthru_fields (a : abi) : list (string * ctype) :=
  [("version", t_ushort); ("status_validity", t_ubyte); ("scsi_bus_status", t_ubyte);
   ("adap_status_type", t_ubyte); ("adapter_status", t_ubyte); ("adap_set_flags", t_ubyte);
   ("add_device_status", t_ubyte); ("adap_q_status", t_ubyte); ("q_tag_msg", t_ubyte); ("flags", t_ubyte);
   ("devflags", t_ubyte); ("q_flags", t_ubyte); ("command_length", t_ushort); ("einval_arg", t_ushort);
   ("autosense_length", t_ushort); ("timeout_value", t_uint); ("data_length", t_ulonglong a);
   ("scsi_id", t_ulonglong a); ("lun_id", t_ulonglong a); ("buffer", t_void_p a);
   ("autosense_buffer_ptr", t_void_p a); ("scsi_cdb", ByteArray SC_PASSTHRU_CDB_LEN);
   ("world_wide_name", t_ulonglong a); ("node_name", t_ulonglong a); ("variable_cdb_length", t_uint);
   ("variable_cdb_ptr", t_void_p a); ("residual", t_ulonglong a)].

(** SCSIPassThroughDirect._fields_, win32.py:279-313, with _pack_ = 1 (278); the paddings depend on
    is_python_64bit (273-275). *)
Definition spt_fields (a : abi) : list (string * ctype) :=
  let more := if (ptr_bytes a =? 8)%nat then 4%nat else 0%nat in
  [("Length", t_ushort); ("ScsiStatus", t_ubyte); ("PathId", t_ubyte); ("TargetId", t_ubyte);
   ("Lun", t_ubyte); ("CdbLength", t_ubyte); ("SenseInfoLength", t_ubyte); ("DataIn", t_ubyte);
   ("padding1", ByteArray 3); ("DataTransferLength", t_ulong a); ("TimeOutValue", t_ulong a);
   ("padding2", ByteArray more); ("DataBuffer", t_void_p a); ("SenseInfoOffset", t_ulong a);
   ("Cdb", ByteArray 16); ("padding3", ByteArray more); ("sense_buffer", ByteArray SENSE_SIZE)].

(** struct.pack("PPLLP", ...) with native sizes and alignment, win32.py:136-138. *)
Definition overlapped_fields (a : abi) : list (string * ctype) :=
  [("Internal", t_void_p a); ("InternalHigh", t_void_p a); ("Offset", t_ulong a); ("OffsetHigh", t_ulong a);
   ("hEvent", t_void_p a)].

(** The fields of an SGIO object in their order, linux.py:119-142, those that [sg_hdr] leaves out being
    zero; [loc] gives the machine address of a buffer. *)
Definition pointer (loc : addr -> Z) (p : option addr) : cvalue :=
  CNum (match p with Some x => loc x | None => 0 end).
(** As above: linux.py:119-142. *)
Definition sgio_values (loc : addr -> Z) (q : sg_hdr) : list cvalue :=
  [CNum (interface_id q); CNum (dxfer_direction q); CNum (cmd_len q); CNum (mx_sb_len q); CNum 0; CNum (dxfer_len q);
   pointer loc (dxferp q); pointer loc (cmdp q); pointer loc (sbp q); CNum (hdr_timeout q); CNum (hdr_flags q);
   CNum (pack_id q); CNum 0; CNum (status q); CNum 0; CNum 0; CNum 0; CNum (host_status q); CNum (driver_status q);
   CNum (resid q); CNum 0; CNum 0].
(** The same for SCSICMD, solaris.py:103-117. *)
Definition scsicmd_values (loc : addr -> Z) (q : uscsi_hdr) : list cvalue :=
  [CNum (uscsi_flags q); CNum (uscsi_status q); CNum (uscsi_timeout q); pointer loc (uscsi_cdb q);
   pointer loc (uscsi_bufaddr q); CNum (uscsi_buflen q); CNum 0; CNum (uscsi_cdblen q); CNum (uscsi_rqlen q);
   CNum (uscsi_rqstatus q); CNum 0; pointer loc (uscsi_rqbuf q); CNum 0].
(** The same for sc_passthru, aix.py:247-275. *)
Definition passthru_values (loc : addr -> Z) (q : sc_hdr) : list cvalue :=
  [CNum (sc_version q); CNum (status_validity q); CNum (scsi_bus_status q); CNum 0; CNum 0; CNum 0; CNum 0; CNum 0;
   CNum 0; CNum (sc_flags q); CNum (devflags q); CNum 0; CNum (command_length q); CNum (einval_arg q);
   CNum (autosense_length q); CNum (timeout_value q); CNum (data_length q); CNum 0; CNum 0;
   pointer loc (sc_buffer q); pointer loc (autosense_buffer_ptr q); CBytes (scsi_cdb q); CNum 0; CNum 0; CNum 0;
   CNum 0; CNum 0].
(** The same for SCSIPassThroughDirect, win32.py:279-313; Length and SenseInfoOffset are
    sizeof(SCSIPassThroughDirect) - SENSE_SIZE (333, 340). *)
Definition spt_values (a : abi) (loc : addr -> Z) (q : spt_hdr) : list cvalue :=
  let n := Z.of_nat (sizeof (Some 1%nat) (map snd (spt_fields a))) - Z.of_nat SENSE_SIZE in
  [CNum (c_ushort n); CNum (ScsiStatus q); CNum 0; CNum 0; CNum 0; CNum (CdbLength q); CNum (SenseInfoLength q);
   CNum (DataIn q); CBytes (zeros 3); CNum (DataTransferLength q); CNum (TimeOutValue q);
   CBytes (zeros (if (ptr_bytes a =? 8)%nat then 4 else 0)); pointer loc (DataBuffer q); CNum n; CBytes (Cdb q);
   CBytes (zeros (if (ptr_bytes a =? 8)%nat then 4 else 0)); CBytes (spt_sense q)].

(** The memory of the created objects, to_raw(): linux.py:167-168, solaris.py:141-142, aix.py:302-303,
    win32.py:324-325. *)
Definition sgio_raw (a : abi) (loc : addr -> Z) (q : sg_hdr) : bytes :=
  to_raw a None (map snd (sgio_fields a)) (sgio_values loc q).
(** As above: solaris.py:141-142. *)
Definition scsicmd_raw (a : abi) (loc : addr -> Z) (q : uscsi_hdr) : bytes :=
  to_raw a None (map snd (scsicmd_fields a)) (scsicmd_values loc q).
(** As above: aix.py:302-303. *)
Definition passthru_raw (a : abi) (loc : addr -> Z) (q : sc_hdr) : bytes :=
  to_raw a None (map snd (passthru_fields a)) (passthru_values loc q).
(** As above: win32.py:324-325. *)
Definition spt_raw (a : abi) (loc : addr -> Z) (q : spt_hdr) : bytes :=
  to_raw a (Some 1%nat) (map snd (spt_fields a)) (spt_values a loc q).

(** SGIO.from_string, SCSICMD.from_string, sc_passthru.from_string: linux.py:205-210, solaris.py:175-180,
    aix.py:333-338. *)
Definition sgio_from_string (a : abi) (b : bytes) : result (list cvalue) :=
  from_string a None (map snd (sgio_fields a)) b.
(** As above: solaris.py:175-180. *)
Definition scsicmd_from_string (a : abi) (b : bytes) : result (list cvalue) :=
  from_string a None (map snd (scsicmd_fields a)) b.
(** As above: aix.py:333-338. *)
Definition passthru_from_string (a : abi) (b : bytes) : result (list cvalue) :=
  from_string a None (map snd (passthru_fields a)) b.

(** The structure that overlapped_struct_from_event packs; c_buffer appends a NUL, win32.py:136-138. *)
Definition overlapped_raw (a : abi) (event : Z) : bytes :=
  to_raw a None (map snd (overlapped_fields a)) [CNum 0; CNum 0; CNum 0; CNum 0; CNum event] ++ [0].

(** IOCTL_SCSI_PASS_THROUGH_DIRECT, win32.py:265; SG_IO, linux.py:276; USCSICMD, solaris.py:95-96. *)
Definition IOCTL_SCSI_PASS_THROUGH_DIRECT : Z := 315412.
(** As above: linux.py:276. *)
Definition SG_IO : Z := 8837.
(** As above: solaris.py:95-96. *)
Definition USCSICMD : Z := Z.lor (Z.shiftl 4 8) 201.
