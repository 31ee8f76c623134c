(** Specification of coroutines: nested generators read as nested calls. *)
From Coq Require Import ZArith List Bool.
From Verif Require Import Base Gen.
Import ListNotations.

(** Result of calling a generator: a value or an exception.  The flag of
    [CallReturns] tells whether the value was the last thing yielded as a plain
    value (rather than the result of an async IO token or the None of a callee that
    yields nothing at all). *)
Inductive call_out (D : Type) : Type :=
| CallReturns (v : val D) (plain : bool)
| CallRaises (e : exn).
Arguments CallReturns {D} v plain.
Arguments CallRaises {D} e.

Definition not_exn {D} (v : val D) : Prop := forall e, v <> VExn e.

(** [evaluates g i p s s' o]: resuming [g] with input [i] in state [s] and running it
    to completion leads to state [s'] and outcome [o], where
    - a generator that finishes returns the value it received last,
    - a yielded plain value is received back,
    - a yielded generator is evaluated recursively, its value received or its
      exception raised at the yield,
    - a yielded token is asked for its result, which is received.
    There is no rule for a generator that catches an exception and then finishes
    without yielding, nor for yielded exception objects. *)
Inductive evaluates {S D : Type} :
  gen S D -> input D -> bool -> S -> S -> call_out D -> Prop :=
| ev_finish : forall g v p s s1,
    resume g (Send v) s = (s1, Stop) ->
    not_exn v ->
    evaluates g (Send v) p s s1 (CallReturns v p)
| ev_raise : forall g i p s s1 e,
    resume g i s = (s1, Raise e) ->
    evaluates g i p s s1 (CallRaises e)
| ev_value : forall g i p s s1 s2 v k o,
    resume g i s = (s1, Yield (YVal v) k) ->
    not_exn v ->
    evaluates k (Send v) true s1 s2 o ->
    evaluates g i p s s2 o
| ev_call : forall g i p s s1 s2 s3 c k v q o,
    resume g i s = (s1, Yield (YGen c) k) ->
    evaluates c (Send VNone) false s1 s2 (CallReturns v q) ->
    evaluates k (Send v) q s2 s3 o ->
    evaluates g i p s s3 o
| ev_call_raise : forall g i p s s1 s2 s3 c k e o,
    resume g i s = (s1, Yield (YGen c) k) ->
    evaluates c (Send VNone) false s1 s2 (CallRaises e) ->
    evaluates k (Throw e) false s2 s3 o ->
    evaluates g i p s s3 o
| ev_token : forall g i p s s1 s2 s3 t k v o,
    resume g i s = (s1, Yield (YTok t) k) ->
    t s1 = (s2, Ok v) ->
    not_exn v ->
    evaluates k (Send v) false s2 s3 o ->
    evaluates g i p s s3 o.

(** Calling a coroutine from outside: it starts with None, and a coroutine that
    yields nothing at all returns None. *)
Definition call_evaluates {S D} (g : gen S D) (s s' : S) (o : call_out D) : Prop :=
  evaluates g (Send VNone) true s s' o.

(** [sync_wait g] in state [s] ends in state [s'] with outcome [o]: it does so
    with some number of steps and then with every larger bound. *)
Definition sync_wait_ends {S D} (g : gen S D) (s s' : S) (o : outcome S D) : Prop :=
  exists n, forall m, (n <= m)%nat -> sync_wait m g s = Some (s', o).

(** Well-mannered coroutines: never yield exception objects, never finish right
    after an exception was thrown into them, and tokens do not fail. *)
CoInductive well_mannered {S D : Type} (g : gen S D) : Prop :=
| wm_intro :
    (forall i s s1, resume g i s = (s1, Stop) -> exists v, i = Send v) ->
    (forall i s s1 v k, resume g i s = (s1, Yield (YVal v) k) -> not_exn v /\ well_mannered k) ->
    (forall i s s1 c k, resume g i s = (s1, Yield (YGen c) k) -> well_mannered c /\ well_mannered k) ->
    (forall i s s1 t k, resume g i s = (s1, Yield (YTok t) k) ->
       (forall s2, exists s3 v, t s2 = (s3, Ok v) /\ not_exn v) /\ well_mannered k) ->
    well_mannered g.

(** [thrown fs e s e' s']: exception [e] is thrown into the first of the generators [fs], what that raises
    into the next, and so on; [e'] comes out of the last. *)
Inductive thrown {S D : Type} : list (gen S D) -> exn -> S -> exn -> S -> Prop :=
| thrown_nil : forall e s, thrown [] e s e s
| thrown_cons : forall g fs e s e1 s1 e2 s2,
    resume g (Throw e) s = (s1, Raise e1) -> thrown fs e1 s1 e2 s2 -> thrown (g :: fs) e s e2 s2.

(** [keeps I g]: every step of [g], of the generators it calls and of the tokens it
    waits for takes states satisfying [I] to states satisfying [I], whatever values or
    exceptions are sent into it. *)
CoInductive keeps {S D : Type} (I : S -> Prop) (g : gen S D) : Prop :=
| keeps_intro :
    (forall i s s1, I s -> resume g i s = (s1, Stop) -> I s1) ->
    (forall i s s1 e, I s -> resume g i s = (s1, Raise e) -> I s1) ->
    (forall i s s1 v k, I s -> resume g i s = (s1, Yield (YVal v) k) -> I s1 /\ keeps I k) ->
    (forall i s s1 c k, I s -> resume g i s = (s1, Yield (YGen c) k) ->
       I s1 /\ keeps I c /\ keeps I k) ->
    (forall i s s1 t k, I s -> resume g i s = (s1, Yield (YTok t) k) ->
       I s1 /\ (forall s2, I s2 -> I (fst (t s2))) /\ keeps I k) ->
    keeps I g.

(** [reaches_call g i s c s1 k]: resumed with [i] in state [s], [g] gets (through plain
    values, finished calls and async results) to the point where it calls [c] in state
    [s1] with [k] the rest of [g]. *)
Inductive reaches_call {S D : Type} : gen S D -> input D -> S -> gen S D -> S -> gen S D -> Prop :=
| rc_here : forall g i s s1 c k,
    resume g i s = (s1, Yield (YGen c) k) -> reaches_call g i s c s1 k
| rc_value : forall g i s s1 v g1 c s2 k,
    resume g i s = (s1, Yield (YVal v) g1) -> not_exn v ->
    reaches_call g1 (Send v) s1 c s2 k -> reaches_call g i s c s2 k
| rc_call : forall g i s s1 c1 g1 s2 v q c s3 k,
    resume g i s = (s1, Yield (YGen c1) g1) ->
    evaluates c1 (Send VNone) false s1 s2 (CallReturns v q) ->
    reaches_call g1 (Send v) s2 c s3 k -> reaches_call g i s c s3 k
| rc_call_raise : forall g i s s1 c1 g1 s2 e c s3 k,
    resume g i s = (s1, Yield (YGen c1) g1) ->
    evaluates c1 (Send VNone) false s1 s2 (CallRaises e) ->
    reaches_call g1 (Throw e) s2 c s3 k -> reaches_call g i s c s3 k
| rc_token : forall g i s s1 t s2 v g1 c s3 k,
    resume g i s = (s1, Yield (YTok t) g1) -> t s1 = (s2, Ok v) -> not_exn v ->
    reaches_call g1 (Send v) s2 c s3 k -> reaches_call g i s c s3 k.
