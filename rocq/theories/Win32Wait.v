(** Waiting for several asynchronous transfers on Windows, src/infi/asi/win32.py:173-209.
    Gen.react leaves the wait abstract; here are the events, the dictionary built from
    them, the integer kernel32 returns and the test made on it. *)
From Coq Require Import ZArith List Bool.
From Verif Require Import Base Gen.
Import ListNotations.
Local Open Scope Z_scope.

(** Assignment to an entry of a dictionary keyed by event handles: a key that is there
    keeps its place and gets the new value. [win32.py:184] *)
Fixpoint event_set (e : Z) (k : nat) (d : list (Z * nat)) : list (Z * nat) :=
  match d with
  | [] => [(e, k)]
  | (e0, k0) :: r => if e0 =? e then (e0, k) :: r else (e0, k0) :: event_set e k r
  end.

(** The dictionary comprehension over the waiting coroutines, win32.py:184; [ev k] is
    the event of the token command [k] waits for (every waiting coroutine's result is
    its token, so the attribute lookup succeeds). *)
Definition events_of (ev : nat -> Z) (waiting : list nat) : list (Z * nat) :=
  fold_left (fun d k => event_set (ev k) k d) waiting [].

(** WaitForMultipleObjects, win32.py:173-180; [os events] is what kernel32 returns for
    this array of handles and DEFAULT_TIMEOUT, read as a C int (the ctypes default). *)
Definition wait_for_multiple (os : list Z -> Z) (events : list Z) : result Z :=
  let r := os events in
  if (r <? 0) || (128 <=? r) then Err EAsiOS else Ok r.

(** The first part of _wait_for_events, win32.py:183-187: the command whose event was
    signalled. *)
Definition signalled_command (ev : nat -> Z) (os : list Z -> Z) (waiting : list nat) : result nat :=
  let events := events_of ev waiting in
  do i <- wait_for_multiple os (map fst events);
  match nth_error events (Z.to_nat i) with
  | None => Err EIndex
  | Some (_, k) => Ok k
  end.

Section Reactor.
Context {S D : Type}.

(** wait_for's while loop, win32.py:195-203, with _wait_for_events (182-188).  In the
    round with [m'] rounds left, [ev m'] gives the events of the commands and [os m']
    the operating system's answers. *)
Fixpoint win_react (n m : nat) (ev : nat -> nat -> Z) (os : nat -> list Z -> Z) (cmds : list nat)
  (tbl : list (nat * cor S D)) (done : list (nat * res S D)) (s : S) : S * reactor_out :=
  match run_ready n cmds tbl done s with
  | (s1, None) => (s1, RBudget)
  | (s1, Some (Err e)) => (s1, RRaised e)
  | (s1, Some (Ok (tbl1, done1))) =>
    match tbl1 with
    | [] => (s1, RDone done1)
    | _ =>
      match m with
      | O => (s1, RBudget)
      | Datatypes.S m' =>
        match signalled_command (ev m') (os m') (map fst tbl1) with
        | Err e => (s1, RRaised e)
        | Ok k =>
          match lookup_key k tbl1 with
          | None => (s1, RRaised EKey)
          | Some c =>
            match async_io_complete c s1 with
            | (s2, Err e) => (s2, RRaised e)
            | (s2, Ok c1) => win_react n m' ev os [k] (update_key k c1 tbl1) done1 s2
            end
          end
        end
      end
    end
  end.

(** Win32AsyncReactor.wait_for, win32.py:190-209. *)
Definition win_async_wait (n m : nat) (ev : nat -> nat -> Z) (os : nat -> list Z -> Z)
  (cmds : list (gen S D)) (s : S) : S * option (result (list (res S D))) :=
  let ks := keys cmds in
  match win_react n m ev os ks (combine ks (map coroutine_init cmds)) [] s with
  | (s1, RBudget) => (s1, None)
  | (s1, RRaised e) => (s1, Some (Err e))
  | (s1, RDone done) => (s1, Some (collect ks done))
  end.
End Reactor.
