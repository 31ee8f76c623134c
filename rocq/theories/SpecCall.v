(** Specification vocabulary for executers driven through generators. *)
From Coq Require Import ZArith List Bool Permutation.
From Verif Require Import Base Gen SpecGen Executer.
Import ListNotations.
Open Scope Z_scope.

Section Spec.
Context {R W O C : Type}.
Notation ex := (executer R W).

(** State of the executer at the moment the OS layer is asked to prepare / to send. *)
Definition at_prepare (s : ex) : ex := with_index s ((packet_index s + 1) mod max_queue_size s).
Definition at_send (s : ex) (r : R) (cb : option nat) : ex :=
  with_pending (at_prepare s) (dict_set (packet_index s) (r, cb) (pending s)).

(** [arrivals w] lists the responses that the device will hand over, oldest first, as
    packet id and the response as a function of the request it belongs to.  An OS layer
    delivers them if receiving hands over the first one (for a waiting packet id) and
    changes nothing in the executer but the outside world. *)
Definition delivers (os : os_layer R W O C) (arrivals : W -> list (Z * (R -> resp))) : Prop :=
  forall (st : ex) pid f rest r cb,
    arrivals (world st) = (pid, f) :: rest ->
    dict_get pid (pending st) = Some (r, cb) ->
    exists w', arrivals w' = rest /\
      evaluates (os_receive os) (Send VNone) false st (with_world st w')
        (CallReturns (VData (DPair (f r) pid)) true).

(** The callback invocations due when responses [l] arrive for the waiting requests [d]. *)
Definition deliveries (d : dict (R * option nat)) (l : list (Z * (R -> resp))) : list (nat * resp) :=
  flat_map (fun p => match dict_get (fst p) d with
                     | Some (r, Some k) => [(k, snd p r)]
                     | _ => []
                     end) l.

(** Every waiting request has a callback. *)
Definition all_have_callbacks (d : dict (R * option nat)) : Prop :=
  Forall (fun p => exists k, snd (snd p) = Some k) d.

(** Outcome of a call whose own response is [rp]. *)
Definition outcome_of (rp : resp) : call_out (dval O) :=
  match rp with
  | RespExn e => CallRaises e
  | RespData None => CallReturns VNone true
  | RespData (Some b) => CallReturns (VData (DBytes b)) true
  end.

End Spec.

Section Frame.
Context {R W O C : Type}.
Notation ex := (executer R W).

(** Same waiting requests, next index, size and callback history; the outside world may
    differ. *)
Definition same_books (a b : ex) : Prop :=
  pending a = pending b /\ packet_index a = packet_index b /\
  max_queue_size a = max_queue_size b /\ cb_log a = cb_log b.

(** A generator whose steps only touch the outside world. *)
CoInductive only_world {D} (g : gen ex D) : Prop :=
| ow_intro :
    (forall i s s1, resume g i s = (s1, Stop) -> same_books s s1) ->
    (forall i s s1 e, resume g i s = (s1, Raise e) -> same_books s s1) ->
    (forall i s s1 v k, resume g i s = (s1, Yield (YVal v) k) -> same_books s s1 /\ only_world k) ->
    (forall i s s1 c k, resume g i s = (s1, Yield (YGen c) k) ->
       same_books s s1 /\ only_world c /\ only_world k) ->
    (forall i s s1 t k, resume g i s = (s1, Yield (YTok t) k) ->
       same_books s s1 /\ (forall s2, same_books s2 (fst (t s2))) /\ only_world k) ->
    only_world g.

(** An OS layer that leaves the executer's own attributes alone, as the four of /repo do. *)
Definition os_only_world (os : os_layer R W O C) : Prop :=
  (forall c idx s, same_books s (fst (os_prepare_to_send os c idx s))) /\
  (forall r, only_world (os_send os r)) /\ only_world (os_receive os).

(** The operations of an executer as coroutines. *)
Inductive operation : Type :=
| OpSend (c : C) (cb : option nat)
| OpCall (me : nat) (c : C)
| OpWait.
Definition op_gen (os : os_layer R W O C) (o : operation) : gen ex (dval O) :=
  match o with
  | OpSend c cb => send os c cb
  | OpCall me c => call os me c
  | OpWait => wait os
  end.
(** One operation after the other, each run to its end by sync_wait. *)
Inductive sync_session (os : os_layer R W O C) : ex -> list operation -> ex -> Prop :=
| ss_nil : forall s, sync_session os s [] s
| ss_cons : forall s op ops n s1 o s2,
    sync_wait n (op_gen os op) s = Some (s1, o) ->
    sync_session os s1 ops s2 -> sync_session os s (op :: ops) s2.

End Frame.
Arguments operation : clear implicits.
