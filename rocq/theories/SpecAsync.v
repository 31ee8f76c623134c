(** Specification vocabulary for asynchronous execution: several coroutines, each
    with its own private state, run by the reactor over the list of all states. *)
From Coq Require Import ZArith List Bool.
From Verif Require Import Base Gen SpecGen.
Import ListNotations.

Fixpoint set_nth {A} (i : nat) (x : A) (l : list A) : list A :=
  match l, i with
  | [], _ => []
  | _ :: r, O => x :: r
  | y :: r, Datatypes.S j => y :: set_nth j x r
  end.

(** A token that works on component [i] of the list of states. *)
Definition token_at {S D} (i : nat) (t : token S D) : token (list S) D :=
  fun st => match nth_error st i with
            | Some s => let (s1, r) := t s in (set_nth i s1 st, r)
            | None => (st, Err EIndex)
            end.

(** A coroutine whose mutable state is component [i] of the list of states. *)
CoFixpoint gen_at {S D} (i : nat) (g : gen S D) : gen (list S) D :=
  Gen (fun inp st =>
    match nth_error st i with
    | None => (st, Raise EIndex)
    | Some s =>
      match resume g inp s with
      | (s1, Stop) => (set_nth i s1 st, Stop)
      | (s1, Raise e) => (set_nth i s1 st, Raise e)
      | (s1, Yield (YVal v) k) => (set_nth i s1 st, Yield (YVal v) (gen_at i k))
      | (s1, Yield (YGen c) k) => (set_nth i s1 st, Yield (YGen (gen_at i c)) (gen_at i k))
      | (s1, Yield (YTok t) k) => (set_nth i s1 st, Yield (YTok (token_at i t)) (gen_at i k))
      end
    end).

Definition res_at {S D} (i : nat) (r : res S D) : res (list S) D :=
  match r with
  | RVal v => RVal v
  | RGen g => RGen (gen_at i g)
  | RTok t => RTok (token_at i t)
  end.

(** No token the coroutine (or a callee) yields ever fails. *)
CoInductive tokens_never_fail {S D : Type} (g : gen S D) : Prop :=
| tnf_intro :
    (forall i s s1 v k, resume g i s = (s1, Yield (YVal v) k) -> tokens_never_fail k) ->
    (forall i s s1 c k, resume g i s = (s1, Yield (YGen c) k) ->
       tokens_never_fail c /\ tokens_never_fail k) ->
    (forall i s s1 t k, resume g i s = (s1, Yield (YTok t) k) ->
       (forall s2, exists s3 v, t s2 = (s3, Ok v)) /\ tokens_never_fail k) ->
    tokens_never_fail g.

(** The OS answers with one of the events it was asked to wait for. *)
Definition fair_choice (choose : nat -> list nat -> nat) : Prop :=
  forall j l, l <> [] -> In (choose j l) l.

(** A family of commands, one per private state. *)
Definition commands_at {S D} (gs : list (gen S D)) : list (gen (list S) D) :=
  map (fun p => gen_at (fst p) (snd p)) (combine (seq 0 (length gs)) gs).

Definition results_at {S D} (rs : list (res S D)) : list (res (list S) D) :=
  map (fun p => res_at (fst p) (snd p)) (combine (seq 0 (length rs)) rs).
