(** Specification vocabulary: callbacks that raise, and callbacks that send the next command. *)
From Coq Require Import ZArith List Bool.
From Verif Require Import Base Gen SpecGen Executer SpecCall Callbacks.
Import ListNotations.
Open Scope Z_scope.

Section Spec.
Context {R W O C : Type}.
Notation ex := (executer R W).
Implicit Types (os : os_layer R W O C) (act : nat -> resp -> ex -> ex * result unit).

(** Callbacks that leave the executer alone and raise or not: [bad k] is the exception that [k] raises. *)
Definition only_raise act (bad : nat -> option exn) : Prop :=
  forall k rp s, act k rp s = (s, match bad k with Some e => Err e | None => Ok tt end).

(** The exceptions of callbacks that were called like this. *)
Definition raised_by (bad : nat -> option exn) (calls : list (nat * resp)) : list exn :=
  flat_map (fun p => match bad (fst p) with Some e => [e] | None => [] end) calls.

(** wait() is called again each time that it raised an exception, until it returns; [es] are the exceptions. *)
Inductive waits os act : ex -> list exn -> ex -> Prop :=
| waits_returns : forall s r s', sync_wait_ends (wait_cb act os) s s' (Returned r) -> waits os act s [] s'
| waits_raises : forall s e s1 es s', sync_wait_ends (wait_cb act os) s s1 (Threw e) -> waits os act s1 es s' ->
    waits os act s (e :: es) s'.

(** Callbacks that send the next command with send() of the adapter (sync_wait of the executer's), if there is one: [more k rp]
    is the command and its callback. *)
Definition sends_next os act (more : nat -> resp -> option (C * nat)) : Prop :=
  forall k rp s,
    match more k rp with
    | None => act k rp s = (s, Ok tt)
    | Some (c, j) =>
      (forall s' r, sync_wait_ends (send os c (Some j)) s s' (Returned r) -> act k rp s = (s', Ok tt)) /\
      (forall s' e, sync_wait_ends (send os c (Some j)) s s' (Threw e) -> act k rp s = (s', Err e))
    end.

(** A system that accepts every command and answers [answer c] to [c]; [arrivals] are the answers that were not fetched yet. *)
Definition accepts_and_answers os (arrivals : W -> list (Z * (R -> resp))) (answer : C -> resp)
    (enter : forall A, A -> list A -> list A) : Prop :=
  delivers os arrivals /\
  forall c idx (s : ex), exists r w0, os_prepare_to_send os c idx s = (with_world s w0, Ok r) /\ arrivals w0 = arrivals (world s) /\
    forall s1 : ex, world s1 = w0 -> exists w f v q,
      evaluates (os_send os r) (Send VNone) false s1 (with_world s1 w) (CallReturns v q) /\
      arrivals w = enter _ (idx, f) (arrivals w0) /\ f r = answer c.
(** It answers in the order in which the commands came, or the latest first. *)
Definition behind A (x : A) (l : list A) : list A := l ++ [x].
Definition in_front A (x : A) (l : list A) : list A := x :: l.

(** What is due when the commands [q] (with their callbacks) are answered in their order and each callback may add a command. *)
Inductive served (answer : C -> resp) (more : nat -> resp -> option (C * nat)) : list (nat * C) -> list (nat * resp) -> Prop :=
| served_all : served answer more [] []
| served_next : forall k c q calls,
    served answer more (q ++ match more k (answer c) with Some (c', j) => [(j, c')] | None => [] end) calls ->
    served answer more ((k, c) :: q) ((k, answer c) :: calls).

(** The commands are sent one after the other. *)
Inductive sends os : ex -> list (nat * C) -> ex -> Prop :=
| sends_none : forall s, sends os s [] s
| sends_one : forall s k c q r s1 s', sync_wait_ends (send os c (Some k)) s s1 (Returned r) -> sends os s1 q s' ->
    sends os s ((k, c) :: q) s'.

End Spec.
