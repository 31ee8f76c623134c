(** The C structures the operating systems read and write, as places in memory: where the members of
    sg_io_hdr (Linux, sg.h), uscsi_cmd (Solaris, uscsi.h), sc_passthru (AIX, scsi_buf.h),
    SCSI_PASS_THROUGH_DIRECT (Windows, ntddscsi.h) and OVERLAPPED lie on machines with 64-bit and with
    32-bit pointers, written down from the declarations and the platforms' rules for structures, not
    computed by the model. *)
From Coq Require Import String ZArith List Bool.
From Verif Require Import Base Ctypes.
Import ListNotations.
Local Open Scope string_scope.
Local Open Scope list_scope.
Local Open Scope Z_scope.

(** Platforms: Linux and Solaris with 64-bit and 32-bit pointers, AIX, Windows; [little] is the byte
    order. *)
Definition lp64 (little : bool) : abi := Abi 8 8 8 little.
Definition ilp32 (little : bool) : abi := Abi 4 4 8 little.
Definition llp64 : abi := Abi 8 4 8 true.
Definition win32 : abi := Abi 4 4 8 true.

(** A member: its name, offset, size, and whether it is a signed or unsigned number or bytes. *)
Inductive kind : Type := Signed | Unsigned | Raw.
Record place : Type := Place { place_name : string; place_at : nat; place_size : nat; place_kind : kind }.

(** The number whose bytes, lowest first, are given. *)
Fixpoint low_first (b : bytes) : Z :=
  match b with
  | [] => 0
  | x :: r => x + 256 * low_first r
  end.

(** What is found at a place in memory by a machine of that byte order. *)
Definition found (little : bool) (p : place) (memory : bytes) : cvalue :=
  let b := firstn (place_size p) (skipn (place_at p) memory) in
  let u := low_first (if little then b else rev b) in
  let n := 256 ^ Z.of_nat (place_size p) in
  match place_kind p with
  | Raw => CBytes b
  | Unsigned => CNum u
  | Signed => CNum (if u <? n / 2 then u else u - n)
  end.

(** The member of that name, if there is one. *)
Fixpoint member (name : string) (ps : list place) : option place :=
  match ps with
  | [] => None
  | p :: r => if place_name p =? name then Some p else member name r
  end%string.

(** Buffers have addresses that fit in a pointer. *)
Definition addresses (a : abi) (loc : OsCommon.addr -> Z) : Prop :=
  forall x, 0 <= loc x < 256 ^ Z.of_nat (ptr_bytes a).

(** struct sg_io_hdr with 64-bit pointers, 88 bytes. *)
Definition sg_io_hdr_64 : list place :=
  [Place "interface_id" 0 4 Signed; Place "dxfer_direction" 4 4 Signed; Place "cmd_len" 8 1 Unsigned;
   Place "mx_sb_len" 9 1 Unsigned; Place "iovec_count" 10 2 Unsigned; Place "dxfer_len" 12 4 Unsigned;
   Place "dxferp" 16 8 Unsigned; Place "cmdp" 24 8 Unsigned; Place "sbp" 32 8 Unsigned;
   Place "timeout" 40 4 Unsigned; Place "flags" 44 4 Unsigned; Place "pack_id" 48 4 Signed;
   Place "usr_ptr" 56 8 Unsigned; Place "status" 64 1 Unsigned; Place "masked_status" 65 1 Unsigned;
   Place "msg_status" 66 1 Unsigned; Place "sb_len_wr" 67 1 Unsigned; Place "host_status" 68 2 Unsigned;
   Place "driver_status" 70 2 Unsigned; Place "resid" 72 4 Signed; Place "duration" 76 4 Unsigned;
   Place "info" 80 4 Unsigned].

(** struct sg_io_hdr with 32-bit pointers, 64 bytes. *)
Definition sg_io_hdr_32 : list place :=
  [Place "interface_id" 0 4 Signed; Place "dxfer_direction" 4 4 Signed; Place "cmd_len" 8 1 Unsigned;
   Place "mx_sb_len" 9 1 Unsigned; Place "iovec_count" 10 2 Unsigned; Place "dxfer_len" 12 4 Unsigned;
   Place "dxferp" 16 4 Unsigned; Place "cmdp" 20 4 Unsigned; Place "sbp" 24 4 Unsigned;
   Place "timeout" 28 4 Unsigned; Place "flags" 32 4 Unsigned; Place "pack_id" 36 4 Signed;
   Place "usr_ptr" 40 4 Unsigned; Place "status" 44 1 Unsigned; Place "masked_status" 45 1 Unsigned;
   Place "msg_status" 46 1 Unsigned; Place "sb_len_wr" 47 1 Unsigned; Place "host_status" 48 2 Unsigned;
   Place "driver_status" 50 2 Unsigned; Place "resid" 52 4 Signed; Place "duration" 56 4 Unsigned;
   Place "info" 60 4 Unsigned].

(** struct uscsi_cmd in 64-bit programs, 64 bytes; uscsi_status and uscsi_reason read as one short. *)
Definition uscsi_cmd_64 : list place :=
  [Place "uscsi_flags" 0 4 Signed; Place "uscsi_status" 4 2 Signed; Place "uscsi_timeout" 6 2 Signed;
   Place "uscsi_cdb" 8 8 Unsigned; Place "uscsi_bufaddr" 16 8 Unsigned; Place "uscsi_buflen" 24 8 Unsigned;
   Place "uscsi_resid" 32 8 Unsigned; Place "uscsi_cdblen" 40 1 Unsigned; Place "uscsi_rqlen" 41 1 Unsigned;
   Place "uscsi_rqstatus" 42 1 Unsigned; Place "uscsi_rqresid" 43 1 Unsigned;
   Place "uscsi_rqbuf" 48 8 Unsigned; Place "uscsi_path_instance" 56 8 Unsigned].

(** struct uscsi_cmd in 32-bit programs, 36 bytes. *)
Definition uscsi_cmd_32 : list place :=
  [Place "uscsi_flags" 0 4 Signed; Place "uscsi_status" 4 2 Signed; Place "uscsi_timeout" 6 2 Signed;
   Place "uscsi_cdb" 8 4 Unsigned; Place "uscsi_bufaddr" 12 4 Unsigned; Place "uscsi_buflen" 16 4 Unsigned;
   Place "uscsi_resid" 20 4 Unsigned; Place "uscsi_cdblen" 24 1 Unsigned; Place "uscsi_rqlen" 25 1 Unsigned;
   Place "uscsi_rqstatus" 26 1 Unsigned; Place "uscsi_rqresid" 27 1 Unsigned;
   Place "uscsi_rqbuf" 28 4 Unsigned; Place "uscsi_path_instance" 32 4 Unsigned].

(** struct sc_passthru in 64-bit programs, 168 bytes. *)
Definition sc_passthru_64 : list place :=
  [Place "version" 0 2 Unsigned; Place "status_validity" 2 1 Unsigned; Place "scsi_bus_status" 3 1 Unsigned;
   Place "adap_status_type" 4 1 Unsigned; Place "adapter_status" 5 1 Unsigned;
   Place "adap_set_flags" 6 1 Unsigned; Place "add_device_status" 7 1 Unsigned;
   Place "adap_q_status" 8 1 Unsigned; Place "q_tag_msg" 9 1 Unsigned; Place "flags" 10 1 Unsigned;
   Place "devflags" 11 1 Unsigned; Place "q_flags" 12 1 Unsigned; Place "command_length" 14 2 Unsigned;
   Place "einval_arg" 16 2 Unsigned; Place "autosense_length" 18 2 Unsigned;
   Place "timeout_value" 20 4 Unsigned; Place "data_length" 24 8 Unsigned; Place "scsi_id" 32 8 Unsigned;
   Place "lun_id" 40 8 Unsigned; Place "buffer" 48 8 Unsigned; Place "autosense_buffer_ptr" 56 8 Unsigned;
   Place "scsi_cdb" 64 64 Raw; Place "world_wide_name" 128 8 Unsigned; Place "node_name" 136 8 Unsigned;
   Place "variable_cdb_length" 144 4 Unsigned; Place "variable_cdb_ptr" 152 8 Unsigned;
   Place "residual" 160 8 Unsigned].

(** struct sc_passthru in 32-bit programs, 152 bytes. *)
Definition sc_passthru_32 : list place :=
  [Place "version" 0 2 Unsigned; Place "status_validity" 2 1 Unsigned; Place "scsi_bus_status" 3 1 Unsigned;
   Place "adap_status_type" 4 1 Unsigned; Place "adapter_status" 5 1 Unsigned;
   Place "adap_set_flags" 6 1 Unsigned; Place "add_device_status" 7 1 Unsigned;
   Place "adap_q_status" 8 1 Unsigned; Place "q_tag_msg" 9 1 Unsigned; Place "flags" 10 1 Unsigned;
   Place "devflags" 11 1 Unsigned; Place "q_flags" 12 1 Unsigned; Place "command_length" 14 2 Unsigned;
   Place "einval_arg" 16 2 Unsigned; Place "autosense_length" 18 2 Unsigned;
   Place "timeout_value" 20 4 Unsigned; Place "data_length" 24 8 Unsigned; Place "scsi_id" 32 8 Unsigned;
   Place "lun_id" 40 8 Unsigned; Place "buffer" 48 4 Unsigned; Place "autosense_buffer_ptr" 52 4 Unsigned;
   Place "scsi_cdb" 56 64 Raw; Place "world_wide_name" 120 8 Unsigned; Place "node_name" 128 8 Unsigned;
   Place "variable_cdb_length" 136 4 Unsigned; Place "variable_cdb_ptr" 140 4 Unsigned;
   Place "residual" 144 8 Unsigned].

(** SCSI_PASS_THROUGH_DIRECT in 64-bit programs, 56 bytes. *)
Definition pass_through_64 : list place :=
  [Place "Length" 0 2 Unsigned; Place "ScsiStatus" 2 1 Unsigned; Place "PathId" 3 1 Unsigned;
   Place "TargetId" 4 1 Unsigned; Place "Lun" 5 1 Unsigned; Place "CdbLength" 6 1 Unsigned;
   Place "SenseInfoLength" 7 1 Unsigned; Place "DataIn" 8 1 Unsigned;
   Place "DataTransferLength" 12 4 Unsigned; Place "TimeOutValue" 16 4 Unsigned;
   Place "DataBuffer" 24 8 Unsigned; Place "SenseInfoOffset" 32 4 Unsigned; Place "Cdb" 36 16 Raw].

(** SCSI_PASS_THROUGH_DIRECT in 32-bit programs, 44 bytes. *)
Definition pass_through_32 : list place :=
  [Place "Length" 0 2 Unsigned; Place "ScsiStatus" 2 1 Unsigned; Place "PathId" 3 1 Unsigned;
   Place "TargetId" 4 1 Unsigned; Place "Lun" 5 1 Unsigned; Place "CdbLength" 6 1 Unsigned;
   Place "SenseInfoLength" 7 1 Unsigned; Place "DataIn" 8 1 Unsigned;
   Place "DataTransferLength" 12 4 Unsigned; Place "TimeOutValue" 16 4 Unsigned;
   Place "DataBuffer" 20 4 Unsigned; Place "SenseInfoOffset" 24 4 Unsigned; Place "Cdb" 28 16 Raw].

(** OVERLAPPED in 64-bit programs, 32 bytes. *)
Definition overlapped_64 : list place :=
  [Place "Internal" 0 8 Unsigned; Place "InternalHigh" 8 8 Unsigned; Place "Offset" 16 4 Unsigned;
   Place "OffsetHigh" 20 4 Unsigned; Place "hEvent" 24 8 Unsigned].

(** OVERLAPPED in 32-bit programs, 20 bytes. *)
Definition overlapped_32 : list place :=
  [Place "Internal" 0 4 Unsigned; Place "InternalHigh" 4 4 Unsigned; Place "Offset" 8 4 Unsigned;
   Place "OffsetHigh" 12 4 Unsigned; Place "hEvent" 16 4 Unsigned].

(** What a machine of that byte order finds at the member of that name. *)
Definition look (little : bool) (ps : list place) (name : string) (memory : bytes) : option cvalue :=
  match member name ps with
  | Some p => Some (found little p memory)
  | None => None
  end.

(** What a read of the attribute of that name gives, on an object with these fields and values. *)
Fixpoint attribute (name : string) (fs : list (string * ctype)) (vs : list cvalue) : option cvalue :=
  match fs, vs with
  | (n, _) :: fs', v :: vs' => if (n =? name)%string then Some v else attribute name fs' vs'
  | _, _ => None
  end.

(** Where ctypes puts the fields of a structure. *)
Definition kind_of (t : ctype) : kind :=
  match t with
  | Scalar _ _ true => Signed
  | Scalar _ _ false => Unsigned
  | ByteArray _ => Raw
  end.
Definition places (pack : option nat) (fs : list (string * ctype)) : list place :=
  map (fun x => Place (fst (snd x)) (fst x) (size_of (snd (snd x))) (kind_of (snd (snd x))))
    (combine (offsets pack 0 (map snd fs)) fs).

(** The member of that name is the address of a buffer with that content. *)
Definition points (little : bool) (ps : list place) (m : bytes) (name : string) (loc : OsCommon.addr -> Z)
  (h : OsCommon.heap) (content : bytes) : Prop :=
  exists x, look little ps name m = Some (CNum (loc x)) /\ nth_error h x = Some content.

(** Commands that the structures have room for: a command descriptor block of less than 256 bytes and
    less than four gigabytes of data. *)
Definition sensible (c : OsCommon.scsi_command) : Prop :=
  match c with
  | OsCommon.ReadCmd cdb n => bytes_ok cdb /\ zlen cdb < 256 /\ n < 4294967296
  | OsCommon.WriteCmd cdb data => bytes_ok cdb /\ zlen cdb < 256 /\ zlen data < 4294967296
  end.

(** The members that a request leaves zero: those for the answer, and those that it does not need. *)
Definition sg_io_hdr_unset : list string :=
  ["usr_ptr"; "status"; "masked_status"; "msg_status"; "sb_len_wr"; "host_status"; "driver_status"; "resid"; "duration"; "info"].
Definition uscsi_cmd_unset : list string :=
  ["uscsi_status"; "uscsi_resid"; "uscsi_rqstatus"; "uscsi_rqresid"; "uscsi_path_instance"].
Definition sc_passthru_unset : list string :=
  ["status_validity"; "scsi_bus_status"; "adap_status_type"; "adapter_status"; "adap_set_flags"; "add_device_status"; "adap_q_status";
   "q_tag_msg"; "q_flags"; "einval_arg"; "scsi_id"; "lun_id"; "world_wide_name"; "node_name"; "variable_cdb_length"; "variable_cdb_ptr";
   "residual"].
Definition pass_through_unset : list string := ["ScsiStatus"; "PathId"; "TargetId"; "Lun"].

(** Linux: the structures of 64-bit and of 32-bit programs.  The others likewise. *)
Definition linux_abi (little : bool) (a : abi) (ps : list place) : Prop :=
  (a = lp64 little /\ ps = sg_io_hdr_64) \/ (a = ilp32 little /\ ps = sg_io_hdr_32).
Definition aix_abi (little : bool) (a : abi) (ps : list place) : Prop :=
  (a = lp64 little /\ ps = sc_passthru_64) \/ (a = ilp32 little /\ ps = sc_passthru_32).
Definition windows_abi (a : abi) (ps : list place) (size : Z) : Prop :=
  (a = llp64 /\ ps = pass_through_64 /\ size = 56) \/ (a = win32 /\ ps = pass_through_32 /\ size = 44).
