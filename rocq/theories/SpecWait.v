(** Specification vocabulary: what kernel32!WaitForMultipleObjects promises. *)
From Coq Require Import ZArith List Bool.
From Verif Require Import Base Gen SpecAsync.
Import ListNotations.
Local Open Scope Z_scope.

(** MAXIMUM_WAIT_OBJECTS, WAIT_TIMEOUT and WAIT_FAILED (0xFFFFFFFF read as a C int). *)
Definition most_events : nat := 64.
Definition timed_out : Z := 258.
Definition failed : Z := -1.

(** An array the system accepts: between one and 64 distinct handles, none of them null. *)
Definition acceptable (l : list Z) : Prop :=
  l <> [] /\ (length l <= most_events)%nat /\ NoDup l /\ ~ In 0 l.

(** The system's part: for an acceptable array the index of a signalled event, or a time
    out; too many handles or a null handle make the call fail. *)
Definition win32_waits (os : nat -> list Z -> Z) : Prop :=
  forall j l,
    (acceptable l -> 0 <= os j l < zlen l \/ os j l = timed_out) /\
    ((most_events < length l)%nat \/ In 0 l -> os j l = failed).

(** Some event is always signalled before the time out. *)
Definition wakes_in_time (os : nat -> list Z -> Z) : Prop :=
  forall j l, acceptable l -> os j l <> timed_out.

(** CreateEventW succeeded for every command, and the events are different ones. *)
Definition own_events (ev : nat -> nat -> Z) : Prop :=
  forall j k, ev j k <> 0 /\ forall k', ev j k = ev j k' -> k = k'.

(** The coroutine, started in [s], runs to its first token without finishing or raising;
    [s'] is the state then. *)
Definition comes_to_wait {S D} (g : gen S D) (s s' : S) : Prop :=
  exists n c, loop false n (coroutine_init g) s = Some (s', Blocked c).

(** What goes wrong when commands 0 .. n-1 wait: there are more than 64 of them, or
    CreateEventW failed (a null handle) for one of them, or none completes in 30 seconds. *)
Definition wait_fails (ev : nat -> nat -> Z) (os : nat -> list Z -> Z) (j n : nat) : Prop :=
  (own_events ev /\ (most_events < n)%nat) \/
  (exists k, (k < n)%nat /\ ev j k = 0) \/
  (own_events ev /\ os j (map (ev j) (seq 0 n)) = timed_out).

(** [k] is waiting, and nobody behind it waits for the same event. *)
Definition last_waiting (ev : nat -> Z) (waiting : list nat) (k : nat) : Prop :=
  exists before behind, waiting = before ++ k :: behind /\ forall k', In k' behind -> ev k' <> ev k.
