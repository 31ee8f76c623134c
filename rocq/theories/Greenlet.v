(** Greenlets: gevent_friendly, src/infi/asi/__init__.py:227-236, around the blocking
    calls of linux.py:226, 273, 288 and win32.py:370.

    gevent is an external library: its scheduler is modelled as any choice of the greenlet
    that runs next, made at every sleep(0).  time.sleep and select are taken as they are in
    the standard library (not replaced by gevent.monkey). *)
From Coq Require Import ZArith List Bool.
From Verif Require Import Base Gen Executer OsCommon OsLinux OsWin32.
Import ListNotations.
Open Scope Z_scope.

(** return_value = func(...); sleep(0): the sleep takes place if func has not raised,
    __init__.py:232-235.  The number of sleeps so far. *)
Definition after_sleep {X} (r : result X) (n : nat) : nat := match r with Ok _ => Datatypes.S n | Err _ => n end.

(** The blocking calls of the Linux executers with a sleep behind each, linux.py:226, 273, 288. *)
Definition friendly_sg {D} (drv : sg_driver D) : sg_driver (D * nat) :=
  SgDriver
    (fun q h d => match sg_write drv q h (fst d) with (h1, d1, r) => (h1, (d1, after_sleep r (snd d)), r) end)
    (fun h d => match sg_read drv h (fst d) with (h1, d1, r) => (h1, (d1, after_sleep r (snd d)), r) end)
    (fun q h d => match sg_ioctl drv q h (fst d) with (h1, d1, r) => (h1, (d1, after_sleep r (snd d)), r) end).
(** [linux.py:226, 273, 288] *)
Definition linux_sleeps {D} (s : executer sgio (linux_world (D * nat))) : nat := snd (l_dev (world s)).

(** The blocking call of the Windows executer, win32.py:370; over a Win32AsyncFile the call
    only makes the generator, so that the other two do not sleep. *)
Definition friendly_win {D} (drv : win_driver D) : win_driver (D * nat) :=
  WinDriver
    (fun q h d => match dev_control drv q h (fst d) with
      (h1, d1, q1, r) => (h1, (d1, match r with Some _ => Datatypes.S (snd d) | None => snd d end), q1, r) end)
    (fun q h d => match dev_start drv q h (fst d) with (h1, d1, q1, r) => (h1, (d1, snd d), q1, r) end)
    (fun q h d => match dev_finish drv q h (fst d) with (h1, d1, q1, r) => (h1, (d1, snd d), q1, r) end).
(** [win32.py:370] *)
Definition win_sleeps {D} (s : executer spt (win_world (D * nat))) : nat := snd (w_dev (world s)).

Section Greenlets.
Context {S D : Type} (sleeps : S -> nat).

(** A greenlet that runs sync_wait (coroutines/sync_adapter.py:74-79): somewhere in
    Coroutine.loop (42-47), or at its end. *)
Inductive green : Type :=
| Ready (c : cor S D)
| Over (o : outcome S D).

(** It runs on until the next sleep or its end (coroutines/sync_adapter.py:42-47): the turn
    of the loop in which the sleep took place is the last one. *)
Inductive segment : cor S D -> S -> S -> green -> Prop :=
| sg_done : forall c s, stack c = [] -> segment c s s (Over (Returned (cres c)))
| sg_raise : forall c s s1 e, stack c <> [] -> next_step true c s = (s1, Escape e) -> segment c s s1 (Over (Threw e))
| sg_switch : forall c s s1 c1, stack c <> [] -> next_step true c s = (s1, Continue c1) -> sleeps s1 <> sleeps s ->
    segment c s s1 (Ready c1)
| sg_on : forall c s s1 c1 s2 g, stack c <> [] -> next_step true c s = (s1, Continue c1) -> sleeps s1 = sleeps s ->
    segment c1 s1 s2 g -> segment c s s2 g.

(** Greenlets that share the state (an executer): any of them may run next, __init__.py:234. *)
Inductive greenlets : S -> (nat -> green) -> list nat -> S -> (nat -> green) -> Prop :=
| gl_nil : forall s gs, greenlets s gs [] s gs
| gl_run : forall s gs h c s1 g1 schedule s' gs', gs h = Ready c -> segment c s s1 g1 ->
    greenlets s1 (fun x => if Nat.eqb x h then g1 else gs x) schedule s' gs' ->
    greenlets s gs (h :: schedule) s' gs'.
End Greenlets.
Arguments Ready {S D} c.
Arguments Over {S D} o.
