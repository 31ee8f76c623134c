(** Specification of a command queue: requests in flight at a device that may complete
    them in any order, and the ideal routing of responses to callbacks. *)
From Coq Require Import ZArith List Bool.
From Verif Require Import Base Executer.
Import ListNotations.
Open Scope Z_scope.

(** What the program and the device do: the program sends a command with a callback
    (the OS accepts or rejects it); the device completes the [j]-th oldest command in
    flight, with some response. *)
Inductive sys_event : Type :=
| USend (cb : option nat) (os : result unit)
| UDone (j : nat) (rp : resp).

Inductive sys_obs : Type :=
| SSent                                 (* accepted *)
| SFull                                 (* refused: queue full *)
| SFailed (e : exn)                     (* the OS refused it *)
| SCalled (cb : nat) (rp : resp)        (* callback got a response *)
| SNoCallback                           (* the completed command had no callback *)
| SLost                                 (* response matched no waiting command *)
| SNothing.                             (* no such command in flight *)

Definition drop_nth {A} (j : nat) (l : list A) : list A := firstn j l ++ skipn (S j) l.

(** ** The ideal queue: commands in flight are (number of the send, callback). *)
Record ideal : Type := Ideal { i_flight : list (Z * option nat); i_count : Z }.

Definition ideal_do (max : Z) (q : ideal) (ev : sys_event) : ideal * sys_obs :=
  match ev with
  | USend cb os =>
    if max <=? zlen (i_flight q) then (q, SFull)
    else match os with
         | Ok _ => (Ideal (i_flight q ++ [(i_count q, cb)]) (i_count q + 1), SSent)
         | Err e => (Ideal (i_flight q) (i_count q + 1), SFailed e)
         end
  | UDone j rp =>
    match nth_error (i_flight q) j with
    | None => (q, SNothing)
    | Some (_, cb) =>
      (Ideal (drop_nth j (i_flight q)) (i_count q),
       match cb with Some k => SCalled k rp | None => SNoCallback end)
    end
  end.

Fixpoint ideal_run (max : Z) (q : ideal) (h : list sys_event) : ideal * list sys_obs :=
  match h with
  | [] => (q, [])
  | ev :: r => let (q1, o) := ideal_do max q ev in let (q2, os) := ideal_run max q1 r in (q2, o :: os)
  end.

(** ** The real executer together with the device: in flight are the packet ids. *)
Record system : Type := System { s_ex : executer unit unit; s_flight : list Z }.

Definition system_do (y : system) (ev : sys_event) : system * sys_obs :=
  match ev with
  | USend cb os =>
    match ex_do (s_ex y) (EvSend tt cb os) with
    | (e1, ObsSent idx) => (System e1 (s_flight y ++ [idx]), SSent)
    | (e1, ObsRejected _) => (System e1 (s_flight y), SFull)
    | (e1, ObsSendFailed _ e) => (System e1 (s_flight y), SFailed e)
    | (e1, _) => (System e1 (s_flight y), SNothing)
    end
  | UDone j rp =>
    match nth_error (s_flight y) j with
    | None => (y, SNothing)
    | Some pid =>
      match ex_do (s_ex y) (EvResp rp pid) with
      | (e1, ObsCalled k rp1) => (System e1 (drop_nth j (s_flight y)), SCalled k rp1)
      | (e1, ObsRespRaised EType) => (System e1 (drop_nth j (s_flight y)), SNoCallback)
      | (e1, _) => (System e1 (drop_nth j (s_flight y)), SLost)
      end
    end
  end.

Fixpoint system_run (y : system) (h : list sys_event) : system * list sys_obs :=
  match h with
  | [] => (y, [])
  | ev :: r => let (y1, o) := system_do y ev in let (y2, os) := system_run y1 r in (y2, o :: os)
  end.

Definition system_init (max : Z) : system := System (executer_init max tt) [].
Definition ideal_init : ideal := Ideal [] 0.

(** What the program observes, for a fresh executer of the given queue size. *)
Definition observed (max : Z) (h : list sys_event) : list sys_obs :=
  snd (system_run (system_init max) h).
Definition expected (max : Z) (h : list sys_event) : list sys_obs :=
  snd (ideal_run max ideal_init h).

(** ** Histories *)

(** No command stays in flight while [max] further commands are sent (or fail to be
    sent): at every send that is not refused as full, all commands in flight are among
    the last [max - 1] ones. *)
Fixpoint timely_from (max : Z) (q : ideal) (h : list sys_event) : Prop :=
  match h with
  | [] => True
  | ev :: r =>
    (match ev with
     | USend _ _ => zlen (i_flight q) < max ->
         Forall (fun p => i_count q - max < fst p) (i_flight q)
     | UDone _ _ => True
     end) /\ timely_from max (fst (ideal_do max q ev)) r
  end.
Definition timely (max : Z) (h : list sys_event) : Prop := timely_from max ideal_init h.

(** In-order histories without failing sends. *)
Definition in_order (h : list sys_event) : Prop :=
  Forall (fun ev => match ev with
                    | USend _ (Ok _) => True
                    | USend _ (Err _) => False
                    | UDone j _ => j = O
                    end) h.

(** Histories in which a command is only sent when nothing is in flight. *)
Fixpoint one_at_a_time_from (max : Z) (q : ideal) (h : list sys_event) : Prop :=
  match h with
  | [] => True
  | ev :: r =>
    (match ev with USend _ _ => i_flight q = [] | UDone _ _ => True end)
    /\ one_at_a_time_from max (fst (ideal_do max q ev)) r
  end.
Definition one_at_a_time (max : Z) (h : list sys_event) : Prop :=
  one_at_a_time_from max ideal_init h.

(** The callbacks of the commands still waiting, oldest first. *)
Definition observed_waiting (max : Z) (h : list sys_event) : list (option nat) :=
  map (fun p => snd (snd p)) (pending (s_ex (fst (system_run (system_init max) h)))).
Definition expected_waiting (max : Z) (h : list sys_event) : list (option nat) :=
  map snd (i_flight (fst (ideal_run max ideal_init h))).
