(** Common vocabulary of the model: bytes, Python exceptions as values,
    big-endian numbers.  Python integers are [Z], a byte string is [list Z]. *)
From Coq Require Import ZArith List Bool Lia.
Import ListNotations.
Open Scope Z_scope.

(** A Python [bytes]/[bytearray] object. [e.g. __init__.py:43-56] *)
Definition bytes := list Z.

(** Every element of a Python byte string lies in 0..255. [e.g. __init__.py:43-56] *)
Definition byte_ok (b : Z) : Prop := 0 <= b < 256.
(** [e.g. __init__.py:43-56] *)
Definition bytes_ok (l : bytes) : Prop := Forall byte_ok l.

(** Python exceptions that the modelled code can raise.  The asi exceptions are
    the classes of src/infi/asi/errors.py:1-31 (messages are dropped; the check
    condition keeps its sense buffer, errors.py:16-20); the [EUnsupported...] ones are
    src/infi/asi/cdb/report_luns.py:12-22; the others are builtin exceptions
    or library errors. *)
Inductive exn : Type :=
| EAssertion                       (* AssertionError *)
| EInstruct                        (* any infi.instruct pack/unpack error *)
| EName                            (* NameError *)
| EType                            (* TypeError *)
| EAttribute                       (* AttributeError *)
| EIndex                           (* IndexError *)
| EKey                             (* KeyError *)
| EValue                           (* ValueError *)
| EZeroDivision                    (* ZeroDivisionError *)
| EIO (code : Z)                   (* IOError/OSError from the OS *)
| EAsiGeneric                      (* AsiException *)
| EAsiOS                           (* AsiOSError *)
| EAsiInternal                     (* AsiInternalError *)
| EAsiSCSI                         (* AsiSCSIError (or a subclass without own handling) *)
| EAsiQueueFull                    (* AsiRequestQueueFullError *)
| EAsiReservationConflict          (* AsiReservationConflictError *)
| EAsiCheckCondition (sense : list Z) (* AsiCheckConditionError with its sense buffer *)
| EUnsupportedLunAddressing (item : Z)
| EUnsupportedLunMethod (item : Z)
| EFault                           (* access to memory that is not there: kills the process *)
| EUser (tag : Z).                 (* exception raised by user code *)

(** Outcome of a Python call that may raise. [e.g. __init__.py:87-91] *)
Inductive result (A : Type) : Type :=
| Ok (a : A)
| Err (e : exn).
Arguments Ok {A} a.
Arguments Err {A} e.

(** [e.g. __init__.py:83-91] *)
Definition bind {A B} (r : result A) (f : A -> result B) : result B :=
  match r with Ok a => f a | Err e => Err e end.

Notation "'do' x <- r ; k" := (bind r (fun x => k))
  (at level 200, x pattern, r at level 100, k at level 200).

(** [e.g. __init__.py:87-91] *)
Definition is_ok {A} (r : result A) : Prop := exists a, r = Ok a.
(** [e.g. __init__.py:87-91] *)
Definition is_err {A} (r : result A) : Prop := exists e, r = Err e.

(** Python [assert c]. [e.g. cdb/read.py:33] *)
Definition assert_ (c : bool) : result unit :=
  if c then Ok tt else Err EAssertion.

(** Number denoted by a byte string, most significant byte first.
    [UBInt fields, e.g. cdb/unmap.py:59-60] *)
Fixpoint be_val_from (acc : Z) (l : bytes) : Z :=
  match l with
  | [] => acc
  | b :: r => be_val_from (acc * 256 + b) r
  end.
(** [UBInt fields, e.g. cdb/unmap.py:59-60] *)
Definition be_val (l : bytes) : Z := be_val_from 0 l.

(** The [n] bytes of a number, most significant byte first. [UBInt fields, e.g. cdb/unmap.py:59-60] *)
Fixpoint be_bytes (n : nat) (v : Z) : bytes :=
  match n with
  | O => []
  | S k => be_bytes k (v / 256) ++ [v mod 256]
  end.

(** Python slicing [l[a:b]] for non-negative bounds. [e.g. win32.py:386] *)
Definition slice (a b : nat) (l : bytes) : bytes := firstn (b - a) (skipn a l).

(** Byte at an index (0 if absent; used only where the index is in range).
    [e.g. sense/__init__.py:92-101] *)
Definition byte_at (i : nat) (l : bytes) : Z := nth i l 0.

(** [len(), e.g. __init__.py:94] *)
Definition zlen {A} (l : list A) : Z := Z.of_nat (length l).

(** [create_string_buffer(n), e.g. linux.py:149] *)
Definition zeros (n : nat) : bytes := repeat 0 n.
