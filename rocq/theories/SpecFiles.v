(** What a program may expect of file objects: each stands for the device it was opened with until
    it is closed, and for nothing afterwards. *)
From Coq Require Import ZArith List Bool.
From Verif Require Import Base FileObjects.
Import ListNotations.
Local Open Scope Z_scope.
Local Open Scope list_scope.

Section Files.
Context {D : Type}.
Inductive file_state : Type := Open (d : D) | Shut.

Fixpoint shut_at (f : nat) (l : list file_state) : list file_state :=
  match l, f with
  | [], _ => []
  | _ :: r, O => Shut :: r
  | x :: r, S f' => x :: shut_at f' r
  end.
(** The error of the system for a handle that is not open: EBADF, or a Windows error. *)
Definition bad_handle (k : kind) : exn := match k with KUnix => EIO 9 | _ => EAsiOS end.

(** [AClose] of a file that is closed: an error on UNIX, nothing on Windows. *)
Definition ideal_act (k : kind) (a : action D) (l : list file_state) : list file_state * outcome D :=
  match a with
  | AOpen d => (l ++ [Open d], Returned)
  | AClose f =>
    match nth_error l f with
    | None => (l, Raised EIndex)
    | Some (Open _) => (shut_at f l, Returned)
    | Some Shut => (l, match k with KUnix => Raised (bad_handle k) | _ => Returned end)
    end
  | AUse f =>
    (l, match nth_error l f with
        | None => Raised EIndex
        | Some (Open d) => Reached d
        | Some Shut => Raised (bad_handle k)
        end)
  end.
Fixpoint ideal_acts (k : kind) (acts : list (action D)) (l : list file_state) : list file_state * list (outcome D) :=
  match acts with
  | [] => (l, [])
  | a :: r => let (l1, o) := ideal_act k a l in let (l2, os) := ideal_acts k r l1 in (l2, o :: os)
  end.
(** The program leaves files alone after it has closed them. *)
Definition careful_act (a : action D) (l : list file_state) : bool :=
  match a with
  | AOpen _ => true
  | AClose f | AUse f => match nth_error l f with Some Shut => false | _ => true end
  end.
Fixpoint careful (k : kind) (acts : list (action D)) (l : list file_state) : bool :=
  match acts with
  | [] => true
  | a :: r => careful_act a l && careful k r (fst (ideal_act k a l))
  end.

Definition is_open (s : file_state) : bool := match s with Open _ => true | Shut => false end.
(** The entries that the table should have on account of the files. *)
Fixpoint own (l : list file_state) (hs : list Z) : table D :=
  match l, hs with
  | Open d :: l', h :: hs' => (h, Dev d) :: own l' hs'
  | Shut :: l', _ :: hs' => own l' hs'
  | _, _ => []
  end.
(** How many requests are made of file objects, of which there are l at the start. *)
Fixpoint uses (acts : list (action D)) (l : nat) : nat :=
  match acts with
  | [] => O
  | AOpen _ :: r => uses r (S l)
  | AClose _ :: r => uses r l
  | AUse f :: r => ((if (f <? l)%nat then 1 else 0) + uses r l)%nat
  end.
End Files.
Arguments file_state D : clear implicits.

(** An operating system: new handles are not in use, and not negative. *)
Definition proper_os (pick : nat -> list Z -> Z) : Prop := forall n used, ~ In (pick n used) used /\ 0 <= pick n used.
(** POSIX: the smallest number that is not in use. *)
Definition posix (pick : nat -> list Z -> Z) : Prop := forall n used h, 0 <= h < pick n used -> In h used.
(** The process before: handles of other kinds, or of other files. *)
Definition sound_table {D} (t : table D) : Prop := NoDup (map fst t) /\ Forall (fun e => 0 <= fst e) t.
