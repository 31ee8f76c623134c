(** The control bytes of command objects as Python objects: DEFAULT_CONTROL and
    DEFAULT_CONTROL_BUFFER (src/infi/asi/cdb/control.py:14, 21) are made once, when the module is
    imported, and given as default to all classes. *)
From Coq Require Import String ZArith List Bool.
From Verif Require Import Base OsCommon Instruct Command SpecCdb SpecSettings.
Import ListNotations.
Local Open Scope Z_scope.
Local Open Scope list_scope.

(** Which of the two a class refers to: Field("control", Control, DEFAULT_CONTROL), e.g. cdb/read.py:25, or
    buffer_field(type=ControlBuffer, ...), e.g. cdb/reserve.py:20, cdb/log_sense.py:16.
    (The control of ReceiveCopyOperatingParametersCommand is a number; it is not covered here,
    cdb/receive_copy_operating_parameters.py:12.) *)
Inductive family : Type := OfStruct | OfBuffer.
(** As above: cdb/read.py:25, cdb/reserve.py:20, cdb/log_sense.py:16. *)
Definition family_of (c : command) : family :=
  match c with
  | LogSense _ _ _ _ | ReceiveCopy _ | ReceiveDiagnostic _ _ _ | Reserve6 | Release6 | Reserve10 _ | Release10 _
  | PrIn _ _ | PrOutBasic _ _ _ _ _ | PrOutMove _ _ _ _ _ => OfBuffer
  | _ => OfStruct
  end.

(** set_before_pack=DEFAULT_CONTROL_BUFFER: cdb/log_sense.py:16, cdb/diagnostic/__init__.py:14,
    cdb/persist/input.py:131, cdb/persist/output.py:83. *)
Definition sets_before_pack (c : command) : bool :=
  match c with
  | LogSense _ _ _ _ | ReceiveDiagnostic _ _ _ | PrIn _ _ | PrOutBasic _ _ _ _ _ | PrOutMove _ _ _ _ _ => true
  | _ => false
  end.

(** The two attributes, cdb/control.py:6-12, 17-19. *)
Inductive part : Type := Naca | Vendor.

(** The control objects of the process (the values of naca and vendor_specific), the two of control.py first, and its
    command objects, each with the number of the object that its attribute control refers to.
    [cdb/control.py:14, 21; e.g. cdb/read.py:25] *)
Record memory : Type := Memory {
  controls : list (Z * Z);
  commands : list (command * nat)
}.
(** After the import, cdb/control.py:14 and 21. *)
Definition imported : memory := Memory [(0, 0); (0, 0)] [].
(** As above: cdb/control.py:14, 21. *)
Definition default_number (f : family) : nat := match f with OfStruct => 0 | OfBuffer => 1 end.

(** What a program does: makes a command object, assigns an attribute of its control (cmd.control.naca = x),
    assigns a new control object (cmd.control = Control(naca=n, vendor_specific=v), or ControlBuffer), or
    executes it (models uses outside /repo of cdb/control.py:6-19). *)
Inductive action : Type :=
| Make (c : command)
| SetPart (k : nat) (w : part) (x : Z)
| Replace (k : nat) (n v : Z)
| Execute (k : nat).
(** What comes of it: nothing, or what execute() hands to the executer. [e.g. cdb/read.py:74-76] *)
Inductive outcome : Type := Done | Handed (r : result scsi_command).

(** Assignment to one attribute, cdb/control.py:9, 11, 18, 19. *)
Definition put_part (w : part) (x : Z) (p : Z * Z) : Z * Z :=
  match w with Naca => (x, snd p) | Vendor => (fst p, x) end.
(** The [k]-th of a list replaced (models no particular lines). [attributes assigned in place, cdb/control.py:9, 11] *)
Fixpoint put_at {X : Type} (k : nat) (x : X) (l : list X) : list X :=
  match l, k with
  | [], _ => []
  | _ :: r, 0%nat => x :: r
  | y :: r, S k => y :: put_at k x r
  end.

Section Library.
(** Whether infi.instruct gives a new object a copy of the default, or the default itself (a choice of the library,
    for the classes of each family; e.g. cdb/read.py:25, cdb/reserve.py:20). *)
Context (copies : family -> bool).

(** The default as a new object gets it. [e.g. cdb/read.py:25, cdb/reserve.py:20] *)
Definition take_default (f : family) (cs : list (Z * Z)) : list (Z * Z) * nat :=
  if copies f then (cs ++ [nth (default_number f) cs (0, 0)], length cs) else (cs, default_number f).

(** The request with the control byte of the object: create_datagram(), e.g. cdb/read.py:75; with set_before_pack the
    byte is the last of the CDB (cdb/log_sense.py:16, cdb/diagnostic/__init__.py:14, cdb/persist/input.py:131,
    cdb/persist/output.py:83), for values that fit. *)
Definition handed (c : command) (p : Z * Z) : result scsi_command :=
  if sets_before_pack c then
    do r <- issued c;
    let last := [4 * fst p + 64 * snd p] in
    Ok (match r with
        | ReadCmd cdb n => ReadCmd (removelast cdb ++ last) n
        | WriteCmd cdb data => WriteCmd (removelast cdb ++ last) data
        end)
  else issued_with (control_settings (fst p) (snd p)) c.

(** One action; those on command objects that do not exist do nothing.  Before its first execution the control of a command with
    set_before_pack is taken to be the default.  [cdb/control.py:6-21, e.g. cdb/read.py:25, 74-76, cdb/log_sense.py:16] *)
Definition act (a : action) (m : memory) : memory * outcome :=
  match a with
  | Make c =>
    let (cs, n) := take_default (family_of c) (controls m) in
    (Memory cs (commands m ++ [(c, n)]), Done)
  | SetPart k w x =>
    match nth_error (commands m) k with
    | None => (m, Done)
    | Some (c, n) => (Memory (put_at n (put_part w x (nth n (controls m) (0, 0))) (controls m)) (commands m), Done)
    end
  | Replace k n v =>
    match nth_error (commands m) k with
    | None => (m, Done)
    | Some (c, _) => (Memory (controls m ++ [(n, v)]) (put_at k (c, length (controls m)) (commands m)), Done)
    end
  | Execute k =>
    match nth_error (commands m) k with
    | None => (m, Done)
    | Some (c, n) =>
      if sets_before_pack c then
        let (cs, n') := take_default OfBuffer (controls m) in
        (Memory cs (put_at k (c, n') (commands m)), Handed (handed c (nth n' cs (0, 0))))
      else (m, Handed (handed c (nth n (controls m) (0, 0))))
    end
  end.

(** The memory after a program, given as the list of its actions, the latest first.  [as for act: cdb/control.py:6-21] *)
Fixpoint after (past : list action) : memory :=
  match past with [] => imported | a :: before => fst (act a (after before)) end.
End Library.
