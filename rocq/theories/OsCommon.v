(** Parts shared by the OS layers: SCSI commands as handed to an executer, ctypes
    buffers, C integer types, and the check condition error. *)
From Coq Require Import ZArith List Bool.
From Verif Require Import Base Gen Executer.
Import ListNotations.
Open Scope Z_scope.

(** SCSIReadCommand and SCSIWriteCommand, src/infi/asi/__init__.py:43-56. *)
Inductive scsi_command : Type :=
| ReadCmd (cdb : bytes) (max_response_length : Z)
| WriteCmd (cdb data : bytes).

(** SCSICommand.command, __init__.py:43-46. *)
Definition command_of (c : scsi_command) : bytes :=
  match c with ReadCmd b _ => b | WriteCmd b _ => b end.

(** Memory of ctypes buffers.  An address is the number of the buffer; create_string_buffer
    makes a new one.  Simplifications: memory is never freed, pointers point to the start
    of a buffer. [e.g. linux.py:149, 155, 160] *)
Definition heap := list bytes.
(** [e.g. linux.py:149-151] *)
Definition addr := nat.
(** [create_string_buffer, e.g. linux.py:149] *)
Definition alloc (h : heap) (b : bytes) : heap * addr := (h ++ [b], length h).

(** ctypes.string_at(p, n) as used by the executers (linux.py:238, solaris.py:217,
    aix.py:396) and [buf.raw] (linux.py:268). *)
Definition string_at (p : option addr) (n : nat) (h : heap) : result bytes :=
  match p with
  | None => Err EFault
  | Some a => match nth_error h a with
              | None => Err EFault
              | Some b => if (n <=? length b)%nat then Ok (firstn n b) else Err EFault
              end
  end.
(** As above: linux.py:238; solaris.py:217; aix.py:396. *)
Definition raw_of (a : addr) (h : heap) : result bytes :=
  match nth_error h a with None => Err EFault | Some b => Ok b end.

(** Assignment to ctypes integer fields wraps silently: c_ubyte, c_ushort, c_uint,
    c_int, c_short, c_ulonglong. [e.g. linux.py:122] *)
Definition c_ubyte (z : Z) : Z := z mod 2 ^ 8.
(** [e.g. linux.py:124] *)
Definition c_ushort (z : Z) : Z := z mod 2 ^ 16.
(** [e.g. linux.py:119-141] *)
Definition c_uint (z : Z) : Z := z mod 2 ^ 32.
(** [e.g. aix.py:264] *)
Definition c_ulonglong (z : Z) : Z := z mod 2 ^ 64.
(** [e.g. linux.py:120] *)
Definition c_signed (bits z : Z) : Z := (z + 2 ^ (bits - 1)) mod 2 ^ bits - 2 ^ (bits - 1).
(** [e.g. linux.py:120] *)
Definition c_int (z : Z) : Z := c_signed 32 z.
(** [e.g. solaris.py:105] *)
Definition c_short (z : Z) : Z := c_signed 16 z.

(** SENSE_SIZE, linux.py:110, solaris.py:98, win32.py:271 (aix.py:3 imports linux's). *)
Definition SENSE_SIZE : nat := 255.

(** SCSI_STATUS_CHECK_CONDITION and SCSI_STATUS_RESERVATION_CONFLICT, __init__.py:14-23. *)
Definition SCSI_STATUS_CHECK_CONDITION : Z := 2.
(** As above: __init__.py:14-23. *)
Definition SCSI_STATUS_RESERVATION_CONFLICT : Z := 24.

(** _check_condition, __init__.py:155-157.  [sense_of] stands for
    get_sense_object_from_buffer (sense/__init__.py:92-101), of which only the
    exceptions matter here; it is instantiated by the model in Sense.v. *)
Definition check_condition (sense_of : bytes -> result unit) (buf : bytes) : result resp :=
  do _ <- sense_of buf; Ok (RespExn (EAsiCheckCondition buf)).

(** Objects yielded by the coroutines of an executer over the wire format [H], and by
    commands built on top of it: raw response blocks and parsed responses [A]. [linux.py:272-277] *)
Inductive wire (H A : Type) : Type :=
| WRaw (h : H)
| WObj (a : A).
Arguments WRaw {H A} h.
Arguments WObj {H A} a.

(** A generator suspended at its last yield (models no particular lines).
    [end of a generator function, e.g. linux.py:226] *)
Definition gen_end {S D} : gen S D :=
  Gen (fun i s => match i with Send _ => (s, Stop) | Throw e => (s, Raise e) end).
