(** What a program means by the control bytes it sets, in terms of what it did (a list of actions, the latest first). *)
From Coq Require Import String ZArith List Bool.
From Verif Require Import Base OsCommon Instruct Command SpecDevice SpecCdb SpecSettings Controls.
Import ListNotations.
Local Open Scope Z_scope.
Local Open Scope list_scope.

(** The commands made, in order. *)
Fixpoint made (past : list action) : list command :=
  match past with
  | [] => []
  | Make c :: before => made before ++ [c]
  | _ :: before => made before
  end.

(** Which of the two defaults a class has: the classes derived from Struct the one, those derived from Buffer the other. *)
Definition kind (c : command) : family :=
  match c with
  | Read6 _ _ _ | Read10 _ _ _ _ | Read12 _ _ _ _ | Read16 _ _ _ _ | Write6 _ _ _ | Write10 _ _ _ _ | Write12 _ _ _ _ | Write16 _ _ _ _
  | WriteSame10 _ _ _ _ _ | WriteSame16 _ _ _ _ _ | CompareAndWrite _ _ _ _ _ | Unmap _ _ | ReadCapacity10 _ _ | ReadCapacity16 _ _
  | TestUnitReady | ReportLuns _ _ _ | Rtpg _ _ | Inquiry _ _ _ _ => OfStruct
  | _ => OfBuffer
  end.
(** The commands whose control byte cannot be set. *)
Definition control_is_fixed (c : command) : bool :=
  match c with
  | LogSense _ _ _ _ | ReceiveDiagnostic _ _ _ | PrIn _ _ | PrOutBasic _ _ _ _ _ | PrOutMove _ _ _ _ _ => true
  | _ => false
  end.
(** One of the two values (NACA, vendor specific bits) changed. *)
Definition assigned (w : part) (x : Z) (p : Z * Z) : Z * Z :=
  match w with Naca => (x, snd p) | Vendor => (fst p, x) end.

(** Command [k] has been given a control object of its own. *)
Definition replaced_by (k : nat) (a : action) : bool := match a with Replace j _ _ => Nat.eqb j k | _ => false end.
Definition has_own (k : nat) (past : list action) : bool := existsb (replaced_by k) past.

(** NACA and the vendor specific bits that the program has set in command [k]; 0 if it has not. *)
Fixpoint set_in (k : nat) (past : list action) : Z * Z :=
  match past with
  | [] => (0, 0)
  | SetPart j w x :: before => if Nat.eqb j k then assigned w x (set_in k before) else set_in k before
  | Replace j n v :: before => if Nat.eqb j k then (n, v) else set_in k before
  | _ :: before => set_in k before
  end.

(** Those that it has set in any command of the family that had no control object of its own at that time. *)
Definition same_family (f g : family) : bool :=
  match f, g with OfStruct, OfStruct | OfBuffer, OfBuffer => true | _, _ => false end.
Definition on_default (f : family) (k : nat) (past : list action) : bool :=
  match nth_error (made past) k with Some c => same_family f (kind c) && negb (has_own k past) | None => false end.
Fixpoint set_in_any (f : family) (past : list action) : Z * Z :=
  match past with
  | [] => (0, 0)
  | SetPart k w x :: before => if on_default f k before then assigned w x (set_in_any f before) else set_in_any f before
  | _ :: before => set_in_any f before
  end.

(** The request [r] with NACA and the vendor specific bits in the control byte, the last of the CDB (SAM-5, 5.2). *)
Definition with_control (p : Z * Z) (r : scsi_command) : scsi_command :=
  let last := [4 * fst p + 64 * snd p] in
  match r with
  | ReadCmd cdb n => ReadCmd (removelast cdb ++ last) n
  | WriteCmd cdb data => WriteCmd (removelast cdb ++ last) data
  end.

(** Programs: commands that can be sent, values that fit, and controls set in commands whose control byte
    can be set at all (C90). *)
Definition fits (w : part) (x : Z) : Prop := match w with Naca => 0 <= x < 2 | Vendor => 0 <= x < 4 end.
Definition can_set (k : nat) (past : list action) : Prop := exists c, nth_error (made past) k = Some c /\ takes_control c.
Definition can_send (c : command) : Prop :=
  proper c /\ (exists r, issued c = Ok r) /\ match c with ReceiveCopy _ => False | _ => True end.
Fixpoint sensible (past : list action) : Prop :=
  match past with
  | [] => True
  | Make c :: before => can_send c /\ sensible before
  | SetPart k w x :: before => fits w x /\ can_set k before /\ sensible before
  | Replace k n v :: before => fits Naca n /\ fits Vendor v /\ can_set k before /\ sensible before
  | Execute k :: before => (k < length (made before))%nat /\ sensible before
  end.

(** The program assigns attributes only of control objects that it has assigned itself. *)
Fixpoint keeps_off_defaults (past : list action) : Prop :=
  match past with
  | [] => True
  | SetPart k _ _ :: before => has_own k before = true /\ keeps_off_defaults before
  | _ :: before => keeps_off_defaults before
  end.

(** What is sent with command [k]: what was set in it, if it has a control object for itself, and else what was
    set in any that has not. *)
Definition sent_control (copies : family -> bool) (k : nat) (c : command) (past : list action) : Z * Z :=
  if control_is_fixed c then if copies OfBuffer then (0, 0) else set_in_any OfBuffer past
  else if has_own k past || copies (kind c) then set_in k past
  else set_in_any (kind c) past.
