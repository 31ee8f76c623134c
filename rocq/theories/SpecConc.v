(** Specification vocabulary for several calls on one Windows executer, run by async_wait. *)
From Coq Require Import ZArith List Bool.
From Verif Require Import Base Gen Executer OsCommon SpecSg SpecDrivers.
Import ListNotations.
Open Scope Z_scope.

(** The order in which WaitForMultipleObjects names the waiting commands: in the round
    with [m] rounds left after it, [choose m] names one of those still waiting. *)
Fixpoint signalled (m : nat) (choose : nat -> list nat -> nat) (waiting : list nat) : list nat :=
  match m, waiting with
  | Datatypes.S m', _ :: _ =>
    let k := choose m' waiting in
    k :: signalled m' choose (filter (fun j => negb (Nat.eqb j k)) waiting)
  | _, _ => []
  end.

Section Serve.
Context {T : Type} (tgt : target T).

(** The target runs the commands one after the other, in the order given by their
    positions in [cs], up to the first whose answer is an error: the state of the target
    afterwards, and what each caller is to get back. *)
Fixpoint serve (cs : list scsi_command) (order : list nat) (t : T)
  : T * result (list (nat * option bytes)) :=
  match order with
  | [] => (t, Ok [])
  | i :: r =>
    match nth_error cs i with
    | None => (t, Err EIndex)
    | Some c =>
      let (t1, a) := tgt t (command_of c) (data_out c) in
      match win_expected c a with
      | RespExn e => (t1, Err e)
      | RespData d =>
        match serve cs r t1 with
        | (t2, Err e) => (t2, Err e)
        | (t2, Ok l) => (t2, Ok ((i, d) :: l))
        end
      end
    end
  end.

(** How many of the commands the device answers, in this order, up to and with the first
    whose answer is an error. *)
Fixpoint answered (cs : list scsi_command) (order : list nat) (t : T) : nat :=
  match order with
  | [] => 0
  | i :: r =>
    match nth_error cs i with
    | None => 0
    | Some c =>
      let (t1, a) := tgt t (command_of c) (data_out c) in
      match win_expected c a with
      | RespExn _ => 1
      | RespData _ => Datatypes.S (answered cs r t1)
      end
    end
  end.

(** Every answer of the target is one the executer can interpret: no adapter error, and
    sense data that parses with every CHECK CONDITION. *)
Definition intelligible (sense_of : bytes -> result unit) : Prop :=
  forall t c d, a_host (snd (tgt t c d)) = 0 /\
    (a_status (snd (tgt t c d)) = 2 -> sense_of (pad 255 (a_sense (snd (tgt t c d)))) = Ok tt).
End Serve.
