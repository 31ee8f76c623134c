(** Specification of packing and unpacking numeric fields.  Models no code of /repo. *)
From Coq Require Import String ZArith List Bool.
From Verif Require Import Base Instruct Command.
Import ListNotations.
Local Open Scope string_scope.
Local Open Scope Z_scope.

(** A field whose value is the attribute the user has set. *)
Definition required (f : field) : Prop := f_init f = Required.
(** No bit belongs to two fields. *)
Definition disjoint_fields (fs : list field) : Prop := NoDup (flat_map f_bits fs).
(** The attributes of an object that was made of the attributes [a]. *)
Definition given (fs : list field) (a : attributes) : attrs := map (fun f => (f_name f, PInt (attr (f_name f) a))) fs.
(** The values a field can take. *)
Definition fits (f : field) (v : Z) : Prop :=
  let w := zlen (f_bits f) in
  if f_signed f && (w mod 8 =? 0) then - 2 ^ (w - 1) <= v < 2 ^ (w - 1) else 0 <= v < 2 ^ w.
(** The user has set the attribute, to a value in range. *)
Definition set_and_fits (a : attributes) (f : field) : Prop := exists v, lookup (f_name f) a = Some v /\ fits f v.
