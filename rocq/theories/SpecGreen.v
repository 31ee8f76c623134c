(** What greenlets that share an executer should see. *)
From Coq Require Import ZArith List Bool PeanoNat.
From Verif Require Import Base Gen Executer OsCommon OsLinux OsWin32 SpecSg SpecDrivers SpecSession SpecQueue Greenlet.
Import ListNotations.
Open Scope Z_scope.

(** Greenlets 0 to [count] - 1 run [g h]; there are no others. *)
Definition spawned {S D} (count : nat) (g : nat -> gen S D) : nat -> green := fun h =>
  if Nat.ltb h count then Ready (coroutine_init (g h)) else Over (Returned (RVal VNone)).

(** What goes between the executer and the outside world: commands sent and answers fetched. *)
Inductive event : Type := Sent (x : label) | Got (x : label) (a : answer).
Section Traffic.
Context {T : Type} (tgt : target T).
Inductive traffic : queue label T -> list event -> queue label T -> Prop :=
| tr_nil : forall q, traffic q [] q
| tr_sent : forall q l q1 x, traffic q l q1 -> traffic q (l ++ [Sent x]) (accept x q1)
| tr_got : forall q l q1 x a q2, traffic q l q1 -> next (execute_label tgt) q1 = Some (x, a, q2) ->
    traffic q (l ++ [Got x a]) q2.

(** The commands in the order in which they are sent, and the answer of the target to each. *)
Fixpoint answers (cmd : nat -> scsi_command) (order : list nat) (t : T) : T * list (nat * answer) :=
  match order with
  | [] => (t, [])
  | h :: rest =>
    let (t1, a) := tgt t (command_of (cmd h)) (data_out (cmd h)) in
    let (t2, l) := answers cmd rest t1 in (t2, (h, a) :: l)
  end.
End Traffic.
Definition senders (l : list event) : list nat := flat_map (fun e => match e with Sent x => [l_me x] | Got _ _ => [] end) l.

(** A device that nothing has been sent to. *)
Definition quiet {X T} (script : list device_event) (t : T) : queue X T := Queue script t [] [].

(** The greenlets of a schedule in the order of their first turns. *)
Fixpoint first_turns (seen schedule : list nat) : list nat :=
  match schedule with
  | [] => []
  | h :: rest => if existsb (Nat.eqb h) seen then first_turns seen rest else h :: first_turns (h :: seen) rest
  end.

(** An executer on which nothing is in flight and whose device has received nothing;
    none of [count] callers has an answer yet. *)
Definition unused {T} (count : nat) (script : list device_event) (t : T) (s : executer sgio (linux_world (queue sg_hdr T * nat))) : Prop :=
  pending s = [] /\ 0 <= packet_index s < max_queue_size s /\ max_queue_size s <= 2 ^ 31 /\
  fst (l_dev (world s)) = quiet script t /\ forall h, (h < count)%nat -> ~ In h (map fst (cb_log s)).

(** Every answer with check condition comes with sense data that can be read. *)
Definition intelligible {T} (sense_of : bytes -> result unit) (tgt : target T) : Prop := forall t cdb data,
  is_check_condition (a_status (snd (tgt t cdb data))) (a_driver (snd (tgt t cdb data))) = true ->
  sense_of (pad 255 (a_sense (snd (tgt t cdb data)))) = Ok tt.

(** All greenlets take their turns in rounds, as gevent's own loop does; all commands sent. *)
Definition rounds (count : nat) : list nat := seq 0 count ++ seq 0 count ++ seq 0 count.
Definition nth_label (cmd : nat -> scsi_command) (h : nat) : label := Label (Z.of_nat h) h (cmd h).
Definition all_sent {T} (cmd : nat -> scsi_command) (count : nat) (q : queue label T) : queue label T :=
  fold_left (fun q h => accept (nth_label cmd h) q) (seq 0 count) q.

(** What the caller of a command sees on Windows: DeviceIoControl fails, or its answer. *)
Definition win_verdict {S O} (c : scsi_command) (a : answer) : outcome S (dval O) :=
  if a_host a =? 0 then user_sees (win_expected c a) else Threw EAsiOS.
(** The turns that takes: one until the sleep behind DeviceIoControl, one from there on. *)
Definition win_turns (a : answer) : nat := if a_host a =? 0 then 2 else 1.
Definition win_intelligible {T} (sense_of : bytes -> result unit) (tgt : target T) : Prop := forall t cdb data,
  a_status (snd (tgt t cdb data)) = 2 -> sense_of (pad 255 (a_sense (snd (tgt t cdb data)))) = Ok tt.
Definition win_unused {T} (count : nat) (t : T) (s : executer spt (win_world (T * nat))) : Prop :=
  pending s = [] /\ 0 <= packet_index s < max_queue_size s /\ incoming_packets (world s) = [] /\
  fst (w_dev (world s)) = t /\ forall h, (h < count)%nat -> ~ In h (map fst (cb_log s)).

(** One place in which the latest request is kept until somebody takes it away: the greenlets
    that have put a request there, those whose request has been taken (by whomever), and the
    one whose request lies there.  The requests taken in the end. *)
Fixpoint taken (put got : list nat) (latest : option nat) (schedule : list nat) : list nat :=
  match schedule with
  | [] => got
  | h :: rest =>
    if negb (existsb (Nat.eqb h) put) then taken (put ++ [h]) got (Some h) rest
    else if existsb (Nat.eqb h) got then taken put got latest rest
    else match latest with Some x => taken put (x :: got) None rest | None => taken put got None rest end
  end.
Definition ioctl_unused {T} (count : nat) (t : T) (s : executer sgio (linux_world (sg_state T * nat))) : Prop :=
  pending s = [] /\ 0 <= packet_index s < max_queue_size s /\ max_queue_size s <= 2 ^ 31 /\
  fst (fst (l_dev (world s))) = t /\ forall h, (h < count)%nat -> ~ In h (map fst (cb_log s)).
