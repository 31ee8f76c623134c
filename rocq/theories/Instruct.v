(** The parts of the library infi.instruct on which the commands and the response
    classes are built.  The library is not part of /repo; this file states what is assumed
    about it (see the trusted base in DESIGN.md).  Uses in the repository are cited beside
    each definition, paths relative to src/infi/asi/cdb. *)
From Coq Require Import String ZArith List Bool.
From Verif Require Import Base.
Import ListNotations.
Local Open Scope Z_scope.

(** * Bits of a byte string

    The position of a bit is 8 * byte + bit, bit 0 being the least significant bit of
    the byte.  A numeric field is the list of the positions of its bits, least
    significant bit first. [bytes_ref[i].bits[a:b], e.g. cdb/control.py:18-19] *)
Definition bitpos := nat.

(** [bytes_ref[k].bits[lo:hi]], as in log_sense.py:11. *)
Definition bits_of (k lo hi : nat) : list bitpos :=
  map (fun i => (8 * k + i)%nat) (seq lo (hi - lo)).

(** [bytes_ref[a:b]] of a big-endian field, as in log_sense.py:14: the last byte holds
    the least significant bits. *)
Definition bytes_of (a b : nat) : list bitpos :=
  flat_map (fun j => bits_of (b - 1 - j) 0 8) (seq 0 (b - a)).

(** [bytes_ref[k]], as in log_sense.py:9. *)
Definition byte_of (k : nat) : list bitpos := bits_of k 0 8.

(** As above: log_sense.py:9. *)
Definition bit_at (buf : bytes) (p : bitpos) : bool :=
  Z.testbit (byte_at (p / 8) buf) (Z.of_nat (p mod 8)).

(** The number with the given bits, least significant bit first.
    [fields of some bits, e.g. cdb/control.py:18-19] *)
Fixpoint bits_value (l : list bool) : Z :=
  match l with
  | [] => 0
  | b :: r => Z.b2z b + 2 * bits_value r
  end.

(** All the bytes of a field are there (otherwise infi.instruct raises). [e.g. cdb/rtpg.py:58] *)
Definition covered (ps : list bitpos) (buf : bytes) : bool :=
  forallb (fun p => (p / 8 <? length buf)%nat) ps.

(** [e.g. cdb/operation_code.py:6-7] *)
Definition width (ps : list bitpos) : Z := zlen ps.

(** A field declared with be_int_field is signed unless sign='unsigned' is given
    (rtpg.py:74, diagnostic/__init__.py:13); fields that are not a whole number of bytes are
    never negative. *)
Definition negative (signed : bool) (ps : list bitpos) (v : Z) : bool :=
  signed && (Z.eqb (width ps mod 8) 0) && (2 ^ (width ps - 1) <=? v).

(** As above: rtpg.py:74; diagnostic/__init__.py:13. *)
Definition read_int (signed : bool) (ps : list bitpos) (buf : bytes) : result Z :=
  if covered ps buf then
    let v := bits_value (map (bit_at buf) ps) in
    Ok (if negative signed ps v then v - 2 ^ width ps else v)
  else Err EInstruct.

(** * Packing

    A numeric field of a Struct or of a Buffer: its name, its bits, its sign, and where
    its value comes from: an attribute that must have been set, an attribute with a
    default value, or a value that overrides the attribute (ConstField, set_before_pack).
    [ConstField and defaults, e.g. cdb/unmap.py:13, 16; set_before_pack, e.g. cdb/release.py:14] *)
Inductive init := Required | Default (v : Z) | Fixed (v : Z).
(** [e.g. cdb/unmap.py:13-20] *)
Record field := Field { f_name : string; f_bits : list bitpos; f_signed : bool; f_init : init }.

(** [attributes of command objects, e.g. cdb/unmap.py:35] *)
Definition attributes := list (string * Z).

(** [attribute access, e.g. cdb/unmap.py:35-39] *)
Fixpoint lookup {A} (n : string) (l : list (string * A)) : option A :=
  match l with
  | [] => None
  | (m, v) :: r => if String.eqb n m then Some v else lookup n r
  end.

(** [e.g. cdb/unmap.py:13-20] *)
Definition field_value (f : field) (attrs : attributes) : result Z :=
  match f_init f with
  | Fixed v => Ok v
  | Default d => match lookup (f_name f) attrs with Some v => Ok v | None => Ok d end
  | Required => match lookup (f_name f) attrs with Some v => Ok v | None => Err EInstruct end
  end.

(** A value out of the range of its field is refused. [e.g. cdb/unmap.py:19] *)
Definition in_range (signed : bool) (ps : list bitpos) (v : Z) : bool :=
  if signed && (Z.eqb (width ps mod 8) 0)
  then (- 2 ^ (width ps - 1) <=? v) && (v <? 2 ^ (width ps - 1))
  else (0 <=? v) && (v <? 2 ^ width ps).

(** [e.g. cdb/unmap.py:19] *)
Definition encode (f : field) (v : Z) : result Z :=
  if in_range (f_signed f) (f_bits f) v then Ok (v mod 2 ^ width (f_bits f)) else Err EInstruct.

(** The values written, field by field. [create_datagram, cdb/__init__.py:8-9, 16-17] *)
Definition writes := list (list bitpos * Z).
(** [cdb/__init__.py:8-9, 16-17] *)
Fixpoint field_writes (fs : list field) (attrs : attributes) : result writes :=
  match fs with
  | [] => Ok []
  | f :: r => do v <- field_value f attrs;
              do u <- encode f v;
              do w <- field_writes r attrs;
              Ok ((f_bits f, u) :: w)
  end.

(** [cdb/__init__.py:8-9, 16-17] *)
Fixpoint index_of (p : bitpos) (ps : list bitpos) : option nat :=
  match ps with
  | [] => None
  | q :: r => if (p =? q)%nat then Some O
              else match index_of p r with Some i => Some (S i) | None => None end
  end.

(** Bit [p] after the writes, done in order over a buffer of zeros. [cdb/__init__.py:8-9, 16-17] *)
Fixpoint written (acc : bool) (w : writes) (p : bitpos) : bool :=
  match w with
  | [] => acc
  | (ps, v) :: r =>
      written (match index_of p ps with Some i => Z.testbit v (Z.of_nat i) | None => acc end) r p
  end.

(** [cdb/__init__.py:8-9, 16-17] *)
Definition make_bytes (n : nat) (f : bitpos -> bool) : bytes :=
  map (fun k => bits_value (map (fun i => f (8 * k + i)%nat) (seq 0 8))) (seq 0 n).

(** [cdb/__init__.py:8-9, 16-17] *)
Definition pack_fields (n : nat) (fs : list field) (attrs : attributes) : result bytes :=
  do w <- field_writes fs attrs; Ok (make_bytes n (written false w)).

(** * Struct classes

    The items of [_fields_] of a Struct class are laid out one after the other:
    BitFields of whole bytes filled from the least significant bit (read.py:50-57), UBIntN
    (read.py:58), BytePadding and Padding (unmap.py:14), nested constant and control bytes. *)
Inductive item :=
| BitFields (l : list (option (string * init) * nat))
| UBInt (n : nat) (name : string) (i : init)
| Padding (n : nat).

(** BitField(name, width, default), BitFlag(name, default), BitPadding(width).
    [e.g. cdb/operation_code.py:6] *)
Definition BitField (name : string) (w : nat) (i : init) : option (string * init) * nat :=
  (Some (name, i), w).
(** [e.g. cdb/read_capacity.py:20] *)
Definition BitFlag (name : string) (i : init) : option (string * init) * nat := (Some (name, i), 1%nat).
(** [e.g. cdb/control.py:8] *)
Definition BitPadding (w : nat) : option (string * init) * nat := (None, w).

(** [e.g. cdb/control.py:7-12] *)
Fixpoint bit_fields (p : bitpos) (l : list (option (string * init) * nat)) : list field :=
  match l with
  | [] => []
  | (None, w) :: r => bit_fields (p + w)%nat r
  | (Some (name, i), w) :: r => Field name (seq p w) false i :: bit_fields (p + w)%nat r
  end.

(** [e.g. cdb/control.py:7-12] *)
Definition bit_fields_size (l : list (option (string * init) * nat)) : nat :=
  (list_sum (map snd l) / 8)%nat.

(** [e.g. cdb/unmap.py:12-21] *)
Definition item_size (i : item) : nat :=
  match i with BitFields l => bit_fields_size l | UBInt n _ _ => n | Padding n => n end.

(** [e.g. cdb/unmap.py:12-21] *)
Definition struct_size (l : list item) : nat := list_sum (map item_size l).

(** [e.g. cdb/unmap.py:12-21] *)
Fixpoint struct_fields (off : nat) (l : list item) : list field :=
  match l with
  | [] => []
  | i :: r =>
      match i with
      | BitFields b => bit_fields (8 * off)%nat b
      | UBInt n name v => [Field name (bytes_of off (off + n)%nat) false v]
      | Padding _ => []
      end ++ struct_fields (off + item_size i)%nat r
  end.

(** write_to_string, __init__.py:9. *)
Definition pack_struct (l : list item) (attrs : attributes) : result bytes :=
  pack_fields (struct_size l) (struct_fields 0 l) attrs.

(** * Buffer classes

    pack() of a Buffer makes a string that reaches to the end of the last field.
    [cdb/__init__.py:16-17] *)
Definition buffer_size (fs : list field) : nat :=
  list_max (map (fun f => list_max (map (fun p => S (p / 8)) (f_bits f))) fs).

(** CDBBuffer.create_datagram, __init__.py:16-17. *)
Definition pack_buffer (fs : list field) (attrs : attributes) : result bytes :=
  pack_fields (buffer_size fs) fs attrs.

(** be_uint_field and be_int_field (persist/output.py:43, control.py:18). *)
Definition uint_field (name : string) (ps : list bitpos) (i : init) : field := Field name ps false i.
(** As above: persist/output.py:43; control.py:18. *)
Definition int_field (name : string) (ps : list bitpos) (i : init) : field := Field name ps true i.

(** * Unpacking

    Attributes of a parsed object.  A field of which unpack_if is false is None; a
    bytes or string field is cut short by the end of the data; an integer field that is
    not all there raises. [e.g. cdb/rtpg.py:57-86] *)
Inductive pyval :=
| PNone
| PInt (z : Z)
| PBytes (b : bytes)
| PBool (b : bool)
| PText (s : string)
| PList (l : list pyval)
| PObj (class : string) (l : list (string * pyval)).

(** [e.g. cdb/rtpg.py:57-86] *)
Definition attrs := list (string * pyval).

(** How one attribute is obtained from the attributes read before it and from the data.
    [e.g. cdb/rtpg.py:77, 81] *)
Definition reader := attrs -> bytes -> result pyval.

(** [e.g. cdb/rtpg.py:62-77] *)
Fixpoint unpack_fields (l : list (string * reader)) (got : attrs) (buf : bytes) : result attrs :=
  match l with
  | [] => Ok got
  | (n, r) :: k => do v <- r got buf; unpack_fields k (got ++ [(n, v)]) buf
  end.

(** [e.g. cdb/rtpg.py:57-58] *)
Record pyclass := PyClass { c_name : string; c_fields : list (string * reader) }.

(** [e.g. cdb/inquiry/__init__.py:44-46] *)
Definition unpack (c : pyclass) (buf : bytes) : result pyval :=
  do l <- unpack_fields (c_fields c) [] buf; Ok (PObj (c_name c) l).

(** Integer attribute already read (0 if it is not an integer: does not happen in the
    classes modelled). [e.g. cdb/rtpg.py:77, 81] *)
Definition int_attr (n : string) (got : attrs) : Z :=
  match lookup n got with Some (PInt z) => z | _ => 0 end.

(** Readers for the field kinds. [e.g. cdb/rtpg.py:58] *)
Definition r_int (signed : bool) (ps : list bitpos) : reader :=
  fun _ buf => do v <- read_int signed ps buf; Ok (PInt v).
(** [be_uint_field, e.g. cdb/rtpg.py:58] *)
Definition r_uint (ps : list bitpos) : reader := r_int false ps.
(** [be_int_field, e.g. cdb/rtpg.py:74] *)
Definition r_sint (ps : list bitpos) : reader := r_int true ps.

(** [bytes_ref[a:b]] cut by the end of the data; negative lengths give nothing.
    [e.g. cdb/inquiry/vpd_pages/unit_serial_number.py:11] *)
Definition r_bytes (a : nat) (b : attrs -> bytes -> Z) : reader :=
  fun got buf => Ok (PBytes (slice a (Z.to_nat (b got buf)) buf)).

(** str_field removes trailing NULs and spaces (inquiry/standard.py:68-70). *)
Definition is_pad (b : Z) : bool := (b =? 0) || (b =? 32).
(** As above: inquiry/standard.py:68-70. *)
Fixpoint drop_pad (l : bytes) : bytes :=
  match l with
  | [] => []
  | b :: r => if is_pad b then drop_pad r else l
  end.
(** As above: inquiry/standard.py:68-70. *)
Definition strip (l : bytes) : bytes := rev (drop_pad (rev l)).
(** As above: inquiry/standard.py:68-70. *)
Definition r_str (a : nat) (b : attrs -> bytes -> Z) : reader :=
  fun got buf => Ok (PBytes (strip (slice a (Z.to_nat (b got buf)) buf))).

(** unpack_if (persist/input.py:33). *)
Definition r_if (c : attrs -> bytes -> bool) (r : reader) : reader :=
  fun got buf => if c got buf then r got buf else Ok PNone.

(** buffer_field. [e.g. cdb/inquiry/vpd_pages/unknown.py:8] *)
Definition r_obj (c : pyclass) (a : nat) (b : attrs -> bytes -> Z) : reader :=
  fun got buf => unpack c (slice a (Z.to_nat (b got buf)) buf).

(** list_field: [one] unpacks an element from the head of the data and says how many bytes
    it took.  With n (rtpg.py:77) exactly that many elements are read, without (rtpg.py:81)
    elements are read until nothing is left.  [fuel] is the length of the data; an
    element of size 0 would loop for ever and is reported as EFault. *)
Definition element := bytes -> result (pyval * nat).

(** As above: rtpg.py:77; rtpg.py:81. *)
Fixpoint list_n (one : element) (n : nat) (buf : bytes) : result (list pyval * nat) :=
  match n with
  | O => Ok ([], O)
  | S m => do (v, k) <- one buf;
           do (vs, j) <- list_n one m (skipn k buf);
           Ok (v :: vs, (k + j)%nat)
  end.

(** As above: rtpg.py:77; rtpg.py:81. *)
Fixpoint list_all (one : element) (fuel : nat) (buf : bytes) : result (list pyval) :=
  match buf with
  | [] => Ok []
  | _ => match fuel with
         | O => Err EFault
         | S f => do (v, k) <- one buf;
                  match k with
                  | O => Err EFault
                  | _ => do vs <- list_all one f (skipn k buf); Ok (v :: vs)
                  end
         end
  end.
(** As above: rtpg.py:77; rtpg.py:81. *)
Definition read_list (one : element) (buf : bytes) : result (list pyval) :=
  list_all one (length buf) buf.

(** Element of a fixed size. [e.g. cdb/rtpg.py:57-58, 77] *)
Definition elem_obj (c : pyclass) (size : nat) : element :=
  fun buf => do v <- unpack c buf; Ok (v, size).
(** b_uint64, b_uint8 (persist/input.py:30, receive_copy_operating_parameters.py:40). *)
Definition elem_uint (size : nat) : element :=
  fun buf => do v <- read_int false (bytes_of 0 size) buf; Ok (PInt v, size).
