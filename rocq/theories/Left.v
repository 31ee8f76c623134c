(** What becomes of the generator objects that are given to sync_wait and async_wait
    (src/infi/asi/coroutines/sync_adapter.py, win32.py:181-209): the states in which they
    are left, and what Python does when the objects on the stack of a coroutine are dropped.
    A generator object that has ended behaves like [gen_end]: it stops at once when it is
    resumed, and raises what is thrown into it. *)
From Coq Require Import ZArith List Bool.
From Verif Require Import Base Gen OsCommon Contexts.
Import ListNotations.

Section Left.
Context {S D : Type}.

(** The object given to the coroutine is at the bottom of its stack, sync_adapter.py:9, 27;
    it is not there any more when it has ended (33, 36). *)
Definition object_of (c : cor S D) : gen S D := last (stack c) gen_end.

(** The object after SyncCoroutine.loop, sync_adapter.py:18-47, 65-68, with at most [n]
    steps.  If it yields a token whose result raises, it stays where it is (68, 34-38). *)
Fixpoint object_after (n : nat) (c : cor S D) (s : S) : gen S D :=
  match stack c with
  | [] => gen_end
  | g :: _ =>
    match n with
    | O => object_of c
    | Datatypes.S n' =>
      match next_step true c s with
      | (s1, Continue c1) => object_after n' c1 s1
      | (_, Suspend c1) => object_of c1
      | (_, Escape _) =>
        match resume g (input_of (args c)) s with
        | (_, Yield _ k) => k
        | _ => gen_end
        end
      end
    end
  end.

(** The object after sync_wait, sync_adapter.py:74-79. *)
Definition sync_wait_left (n : nat) (g : gen S D) (s : S) : gen S D := object_after n (coroutine_init g) s.

(** The coroutines that have not ended after the for loop of wait_for, win32.py:196-201.
    One that raises has ended: in AsyncCoroutine only a generator raises
    (sync_adapter.py:34-38, 56-57). *)
Fixpoint run_ready_left (n : nat) (cmds : list nat) (tbl : @table S D) (s : S) : @table S D :=
  match cmds with
  | [] => tbl
  | k :: r =>
    match lookup_key k tbl with
    | None => tbl
    | Some c =>
      match loop false n c s with
      | None => tbl
      | Some (s1, Finished _) => run_ready_left n r (remove_key k tbl) s1
      | Some (s1, Blocked c1) => run_ready_left n r (update_key k c1 tbl) s1
      | Some (_, Raised _) => remove_key k tbl
      end
    end
  end.

(** The same after wait_for, win32.py:195-203, 182-188.  If the result of a token raises, no
    generator has been resumed (187). *)
Fixpoint react_left (n m : nat) (choose : nat -> list nat -> nat) (cmds : list nat) (tbl : @table S D)
  (done : list (nat * res S D)) (s : S) : @table S D :=
  match run_ready n cmds tbl done s with
  | (s1, Some (Ok (tbl1, done1))) =>
    match tbl1, m with
    | _ :: _, Datatypes.S m' =>
      let k := choose m' (map fst tbl1) in
      match lookup_key k tbl1 with
      | None => tbl1
      | Some c =>
        match async_io_complete c s1 with
        | (_, Err _) => tbl1
        | (s2, Ok c1) => react_left n m' choose [k] (update_key k c1 tbl1) done1 s2
        end
      end
    | _, _ => tbl1
    end
  | _ => run_ready_left n cmds tbl s
  end.

(** The coroutines that have not ended when async_wait ends or raises, sync_adapter.py:81-83. *)
Definition async_wait_left (n m : nat) (choose : nat -> list nat -> nat) (cmds : list (gen S D)) (s : S) : @table S D :=
  react_left n m choose (keys cmds) (combine (keys cmds) (map coroutine_init cmds)) [] s.
(** And the state of the object that was the argument number [i]. [win32.py:190-209] *)
Definition argument_left (i : nat) (left : @table S D) : gen S D :=
  match lookup_key i left with Some c => object_of c | None => gen_end end.
(** async_wait with the choice of the reactor, sync_adapter.py:81-83, and the objects after it: nothing of them
    has run when there is no reactor. *)
Definition async_wait_on (p : platform) (n m : nat) (choose : nat -> list nat -> nat) (cmds : list (gen S D)) (s : S) :
  S * option (result (list (res S D))) :=
  match create_os_async_reactor p with
  | Err e => (s, Some (Err e))
  | Ok _ => async_wait n m choose cmds s
  end.
(** [sync_adapter.py:81-83] *)
Definition objects_left_on (p : platform) (n m : nat) (choose : nat -> list nat -> nat) (cmds : list (gen S D)) (s : S) : list (gen S D) :=
  match create_os_async_reactor p with
  | Err _ => cmds
  | Ok _ => map (fun i => argument_left i (async_wait_left n m choose cmds s)) (keys cmds)
  end.

(** A generator object to which nothing refers any more is closed: GeneratorExit (here
    [exit]) is raised where it is suspended, and nobody sees what comes of it. [the except
    clause of __init__.py:108] *)
Definition close (exit : exn) (g : gen S D) (s : S) : S := fst (resume g (Throw exit) s).
(** A coroutine that is dropped: the generators that only its stack refers to, the innermost
    first (a list releases its last element first).  The object that was given to async_wait
    is the user's. [sync_adapter.py:9; win32.py:191] *)
Definition drop (exit : exn) (c : cor S D) (s : S) : S :=
  fold_left (fun s g => close exit g s) (removelast (stack c)) s.
(** All of a table: the exception that left wait_for is gone, and with it the frame.
    [win32.py:190-209] *)
Definition drop_all (exit : exn) (cs : list (cor S D)) (s : S) : S := fold_left (fun s c => drop exit c s) cs s.
End Left.
