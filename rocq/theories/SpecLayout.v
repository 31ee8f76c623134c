(** Specification: where the standards put the numbers of a parameter page.  Models no code
    of /repo. *)
From Coq Require Import String ZArith List Bool.
From Verif Require Import Base Instruct SpecDevice.
Import ListNotations.
Local Open Scope string_scope.
Local Open Scope Z_scope.

(** A place: bytes [a] to [b - 1] as an unsigned or as a two's complement number; [w] bits
    from bit [lo] of byte [k]; [w] bits from bit [lo] (at most 7) of the number in bytes [a] to [b - 1]. *)
Inductive loc :=
| Num (a b : nat)
| SNum (a b : nat)
| Bits (k lo w : nat)
| Mid (a b lo w : nat)
(** A place that no standard uses: [w] bits of byte [k] below the bits of byte [j]. *)
| Swapped (k lo w j : nat).

Definition loc_value (l : loc) (buf : bytes) : Z :=
  match l with
  | Num a b => ub a b buf
  | SNum a b => sb a b buf
  | Bits k lo w => bf k lo w buf
  | Mid a b lo w => (ub a b buf / 2 ^ Z.of_nat lo) mod 2 ^ Z.of_nat w
  | Swapped k lo w j => bf k lo w buf + 2 ^ Z.of_nat w * byte_at j buf
  end.

(** How many bytes must be there to read it. *)
Definition loc_end (l : loc) : nat :=
  match l with
  | Num _ b => b | SNum _ b => b | Bits k _ _ => S k | Mid _ b _ _ => b | Swapped k _ _ j => S (Nat.max k j)
  end.

(** The attributes of a page with their places. *)
Definition layout := list (string * loc).
Definition layout_values (l : layout) (buf : bytes) : attrs :=
  map (fun e => (fst e, PInt (loc_value (snd e) buf))) l.
Definition layout_end (l : layout) : nat := list_max (map (fun e => loc_end (snd e)) l).
Definition flag (k i : nat) : loc := Bits k i 1.

(** A layout with other places for some of the attributes. *)
Definition with_deviations (d : layout) (l : layout) : layout :=
  map (fun e => (fst e, match lookup (fst e) d with Some p => p | None => snd e end)) l.
