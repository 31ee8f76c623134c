(** Command objects of src/infi/asi/cdb and their execute() generators. *)
From Coq Require Import String ZArith List Bool.
From Verif Require Import Base Gen Executer OsCommon Instruct.
Import ListNotations.
Local Open Scope string_scope.
Local Open Scope Z_scope.

(** A command object: its attributes, and what its execute() does with them: create the
    datagram, build the SCSIReadCommand or SCSIWriteCommand around it, and turn the result
    of executer.call (None or a byte string) into the object yielded.  All execute()
    methods of the repository have this form, e.g. cdb/read.py:74-77 and
    cdb/inquiry/__init__.py:41-46. *)
Record cdb_object : Type := CdbObject {
  o_attrs : attributes;
  o_datagram : attributes -> result bytes;
  o_request : attributes -> bytes -> scsi_command;
  o_finish : attributes -> option bytes -> result pyval
}.

(** Attributes assigned by the user between construction and execute(), e.g. cmd.fua = 1
    (models assignments outside /repo; the attributes are those of cdb/read.py:50-57 etc.). *)
Definition assigned (kw : attributes) (o : cdb_object) : cdb_object :=
  CdbObject (kw ++ o_attrs o)%list (o_datagram o) (o_request o) (o_finish o).

(** create_datagram() followed by the construction of the SCSI command, the first part of
    every execute(), e.g. cdb/read.py:75-76. *)
Definition request (o : cdb_object) : result scsi_command :=
  do cdb <- o_datagram o (o_attrs o); Ok (o_request o (o_attrs o) cdb).

(** [result_datagram = yield executer.call(...)] gives None or a byte string. [e.g. cdb/read.py:76] *)
Definition result_datagram {O} (v : val (dval O)) : option (option bytes) :=
  match v with
  | VNone => Some None
  | VData (DBytes b) => Some (Some b)
  | _ => None
  end.

(** The yielded Python object as a value of the generator model. [e.g. cdb/read.py:77] *)
Definition yielded_value {H} (p : pyval) : val (dval (wire H pyval)) :=
  match p with
  | PNone => VNone
  | PBytes b => VData (DBytes b)
  | PBool b => VData (DBool b)
  | PInt z => VData (DInt z)
  | _ => VData (DObj (WObj p))
  end.

(** Attribute of a command object (0 if it was never set, which does not happen for
    the attributes used). [e.g. cdb/read.py:75-76] *)
Definition attr (n : string) (a : attributes) : Z := match lookup n a with Some v => v | None => 0 end.

Section Execute.
Context {R W H : Type} (os : os_layer R W (wire H pyval) scsi_command) (me : nat).
Notation G := (gen (executer R W) (dval (wire H pyval))).

(** The part after [yield executer.call(...)], e.g. cdb/read.py:77, cdb/inquiry/__init__.py:44-46. *)
Definition execute_rest (o : cdb_object) : G :=
  Gen (fun i s =>
    match i with
    | Throw e => (s, Raise e)
    | Send v =>
      match result_datagram v with
      | None => (s, Raise EType)
      | Some d =>
        match o_finish o (o_attrs o) d with
        | Err e => (s, Raise e)
        | Ok p => (s, Yield (YVal (yielded_value p)) gen_end)
        end
      end
    end).

(** execute(executer), e.g. cdb/read.py:74-77. *)
Definition execute (o : cdb_object) : G :=
  Gen (fun i s =>
    match i with
    | Throw e => (s, Raise e)
    | Send _ =>
      match request o with
      | Err e => (s, Raise e)
      | Ok c => (s, Yield (YGen (call os me c)) (execute_rest o))
      end
    end).
End Execute.

(** [yield result_datagram], e.g. cdb/read.py:77. *)
Definition raw_result (_ : attributes) (d : option bytes) : result pyval :=
  Ok (match d with None => PNone | Some b => PBytes b end).

(** result.unpack(result_datagram): None is no buffer (cdb/inquiry/__init__.py:45). *)
Definition parsed (parse : bytes -> result pyval) (_ : attributes) (d : option bytes) : result pyval :=
  match d with None => Err EType | Some b => parse b end.

(** Bytes common to the Struct commands: ConstField("opcode", OperationCode(...))
    (cdb/operation_code.py:4-14) and Field("control", Control, DEFAULT_CONTROL)
    (cdb/control.py:6-14). *)
Definition opcode (op : Z) : item :=
  BitFields [BitField "opcode.command_code" 5 (Fixed (Z.land op 31));
             BitField "opcode.group_code" 3 (Fixed (Z.shiftr op 5))].
(** As above: cdb/operation_code.py:4-14; cdb/control.py:6-14. *)
Definition control : item :=
  BitFields [BitPadding 2; BitField "control.naca" 1 (Default 0); BitPadding 3;
             BitField "control.vendor_specific" 2 (Default 0)].

(** COMMAND_SIZE_BY_GROUP_CODE, cdb/operation_code.py:16-25. *)
Definition command_size_by_group_code (g : Z) : Z :=
  match g with 0 => 6 | 1 => 10 | 2 => 10 | 3 => 0 | 4 => 16 | 5 => 12 | 6 => 0 | 7 => 0 | _ => 0 end.

(** The ControlBuffer at byte [k] of a Buffer command, cdb/control.py:17-21, with
    set_before_pack (cdb/log_sense.py:16) or default (cdb/reserve.py:20). *)
Definition control_buffer (k : nat) (i : init) : list field :=
  [int_field "control.naca" (bits_of k 2 3) i; int_field "control.vendor_specific" (bits_of k 6 8) i].

(** Python's // and %. [e.g. cdb/write.py:38] *)
Definition py_div (a b : Z) : result Z := if b =? 0 then Err EZeroDivision else Ok (a / b).
(** [e.g. cdb/write.py:36] *)
Definition py_mod (a b : Z) : result Z := if b =? 0 then Err EZeroDivision else Ok (a mod b).

(** create_from_string of a Struct class: all its bytes must be there
    (cdb/read_capacity.py:33). *)
Definition unpack_struct (name : string) (l : list item) (buf : bytes) : result pyval :=
  if (struct_size l <=? length buf)%nat
  then unpack (PyClass name (map (fun f => (f_name f, r_uint (f_bits f))) (struct_fields 0 l))) buf
  else Err EInstruct.

(** What execute() of the object yields when executer.call gives [d]: the second part of
    every execute(), e.g. cdb/inquiry/__init__.py:44-46. *)
Definition yields (c : result cdb_object) (d : option bytes) : result pyval :=
  do o <- c; o_finish o (o_attrs o) d.
