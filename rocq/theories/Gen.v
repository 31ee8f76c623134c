(** Python generators, and the driver of src/infi/asi/coroutines/sync_adapter.py
    that runs trees of generators on an explicit stack.

    A generator object is modelled by what happens when it is resumed: given the
    input ([send(v)] or [throw(e)]) and the shared mutable state, it updates the
    state and finishes (StopIteration), raises, or yields something together with
    the generator object in its new state.  Values, not identities: yielding one
    and the same generator object twice is not modelled (no code in /repo does). *)
From Coq Require Import ZArith List Bool.
From Verif Require Import Base.
Import ListNotations.

Section GenDefs.
Context {S D : Type}.

(** Python values that travel through [yield]/[send]: None, an exception
    instance used as a value, anything else. [sync_adapter.py:21-31] *)
Inductive val : Type :=
| VNone
| VExn (e : exn)
| VData (d : D).

(** [sync_adapter.py:22, 24] *)
Inductive input : Type :=
| Send (v : val)
| Throw (e : exn).

(** Async IO token: what [OSAsyncIOToken.get_result] does (src/infi/asi/__init__.py:35-37). *)
Definition token : Type := S -> S * result val.

(** As above: src/infi/asi/__init__.py:35-37. *)
Inductive yielded (G : Type) : Type :=
| YVal (v : val)      (* a plain value *)
| YGen (c : G)        (* a types.GeneratorType object *)
| YTok (t : token).   (* an OSAsyncIOToken object *)
Arguments YVal {G} v.
Arguments YGen {G} c.
Arguments YTok {G} t.

(** [sync_adapter.py:22-35] *)
Inductive event (G : Type) : Type :=
| Stop                                   (* StopIteration *)
| Raise (e : exn)
| Yield (y : yielded G) (k : G).
Arguments Stop {G}.
Arguments Raise {G} e.
Arguments Yield {G} y k.

(** [sync_adapter.py:22-24] *)
CoInductive gen : Type := Gen (f : input -> S -> S * event gen).

(** [sync_adapter.py:22-24] *)
Definition resume (g : gen) : input -> S -> S * event gen :=
  match g with Gen f => f end.

(** Coroutine.result: last object obtained from a generator (initially None). [sync_adapter.py:12] *)
Inductive res : Type :=
| RVal (v : val)
| RGen (g : gen)
| RTok (t : token).

(** Coroutine.__init__, sync_adapter.py:8-13 (tb is not modelled: it only carries
    traceback information; done is [stack = []] on return from loop). *)
Record cor : Type := Cor { stack : list gen; args : val; cres : res }.

(** As above: sync_adapter.py:8-13. *)
Definition coroutine_init (g : gen) : cor := Cor [g] VNone (RVal VNone).

(** Outcome of one _next_step call. [sync_adapter.py:18-40] *)
Inductive step_out : Type :=
| Continue (c : cor)             (* returned True *)
| Suspend (c : cor)              (* returned False *)
| Escape (e : exn).              (* raised *)

(** The input given to the top generator: sync_adapter.py:21-24. *)
Definition input_of (v : val) : input :=
  match v with VExn e => Throw e | _ => Send v end.

(** An exception left the top generator (or the token handler): sync_adapter.py:34-39. *)
Definition unwind (rest : list gen) (r : res) (e : exn) : step_out :=
  match rest with
  | [] => Escape e
  | _ => Continue (Cor rest (VExn e) r)
  end.

(** Coroutine._next_step, sync_adapter.py:18-40.  [sync] selects
    SyncCoroutine._handle_async_io_token (65-68) or AsyncCoroutine's (56-57).
    Note that StopIteration leaves [args] as it is (32-33), and that an exception
    raised by the token's get_result pops the generator that yielded the token. *)
Definition next_step (sync : bool) (c : cor) (s : S) : S * step_out :=
  match stack c with
  | [] => (s, Escape EIndex)
  | g :: rest =>
    match resume g (input_of (args c)) s with
    | (s1, Stop) => (s1, Continue (Cor rest (args c) (cres c)))
    | (s1, Raise e) => (s1, unwind rest (cres c) e)
    | (s1, Yield (YGen ch) k) => (s1, Continue (Cor (ch :: k :: rest) VNone (RGen ch)))
    | (s1, Yield (YVal v) k) => (s1, Continue (Cor (k :: rest) v (RVal v)))
    | (s1, Yield (YTok t) k) =>
        if sync then
          match t s1 with
          | (s2, Ok v) => (s2, Continue (Cor (k :: rest) v (RTok t)))
          | (s2, Err e) => (s2, unwind rest (RTok t) e)
          end
        else (s1, Suspend (Cor (k :: rest) VNone (RTok t)))
    end
  end.

(** Outcome of Coroutine.loop. [sync_adapter.py:42-47] *)
Inductive loop_out : Type :=
| Finished (r : res)             (* stack empty: done = True *)
| Blocked (c : cor)              (* a token handler returned False *)
| Raised (e : exn).

(** Coroutine.loop, sync_adapter.py:42-47; [None] means the step budget [n] ran out
    (the Python loop is unbounded). *)
Fixpoint loop (sync : bool) (n : nat) (c : cor) (s : S) : option (S * loop_out) :=
  match stack c with
  | [] => Some (s, Finished (cres c))
  | _ =>
    match n with
    | O => None
    | Datatypes.S n' =>
      match next_step sync c s with
      | (s1, Continue c1) => loop sync n' c1 s1
      | (s1, Suspend c1) => Some (s1, Blocked c1)
      | (s1, Escape e) => Some (s1, Raised e)
      end
    end
  end.

(** What sync_wait hands back (sync_adapter.py:74-79): the coroutine's result
    object, or the exception.  In sync mode loop never blocks. *)
Inductive outcome : Type :=
| Returned (r : res)
| Threw (e : exn).

(** As above: sync_adapter.py:74-79. *)
Definition sync_wait (n : nat) (g : gen) (s : S) : option (S * outcome) :=
  match loop true n (coroutine_init g) s with
  | None => None
  | Some (s1, Finished r) => Some (s1, Returned r)
  | Some (s1, Blocked _) => Some (s1, Threw (EUser 0))
  | Some (s1, Raised e) => Some (s1, Threw e)
  end.

(** Objects a caller may pass to sync_call's driver: the result of calling
    the function, which is a generator for generator functions and a plain value
    otherwise. [sync_adapter.py:70-72] *)
Inductive pyobj : Type :=
| PGen (g : gen)
| PVal (v : val).

(** sync_call, sync_adapter.py:70-72.  The first call of func only builds a generator
    object that is discarded; for a plain function it computes the value twice.
    A non-generator on the stack has no [send]: AttributeError, raised because the
    stack is then empty (21-38). *)
Definition sync_call (n : nat) (f : S -> S * result pyobj) (s : S) : option (S * outcome) :=
  match f s with
  | (s1, Err e) => Some (s1, Threw e)
  | (s1, Ok _) =>
    match f s1 with
    | (s2, Err e) => Some (s2, Threw e)
    | (s2, Ok (PGen g)) => sync_wait n g s2
    | (s2, Ok (PVal _)) => Some (s2, Threw EAttribute)
    end
  end.

(** ** The asynchronous reactor, src/infi/asi/win32.py:181-209 *)

(** AsyncCoroutine.async_io_complete, sync_adapter.py:59-62. *)
Definition async_io_complete (c : cor) (s : S) : S * result cor :=
  match cres c with
  | RTok t =>
    match t s with
    | (s1, Ok v) => (s1, Ok (Cor (stack c) v (cres c)))
    | (s1, Err e) => (s1, Err e)
    end
  | _ => (s, Err EAttribute)      (* result has no get_result *)
  end.

(** The reactor's table of coroutines: command key (position of the command in the
    argument list, or any other name of the generator object), coroutine.  A dictionary
    keyed by the generator objects, win32.py:191. *)
Definition table : Type := list (nat * cor).

(** As above: win32.py:191. *)
Definition remove_key {A} (k : nat) (l : list (nat * A)) : list (nat * A) :=
  filter (fun p => negb (Nat.eqb (fst p) k)) l.

(** As above: win32.py:191. *)
Definition lookup_key {A} (k : nat) (l : list (nat * A)) : option A :=
  option_map snd (find (fun p => Nat.eqb (fst p) k) l).

(** As above: win32.py:191. *)
Definition update_key {A} (k : nat) (v : A) (l : list (nat * A)) : list (nat * A) :=
  map (fun p => if Nat.eqb (fst p) k then (k, v) else p) l.

(** As above: win32.py:191. *)
Inductive reactor_out : Type :=
| RDone (results : list (nat * res))
| RRaised (e : exn)
| RBudget.                         (* step budget exhausted *)

(** The for loop of wait_for, win32.py:196-201, over the non-blocking commands. *)
Fixpoint run_ready (n : nat) (cmds : list nat) (tbl : table) (done : list (nat * res))
  (s : S) : S * option (result (table * list (nat * res))) :=
  match cmds with
  | [] => (s, Some (Ok (tbl, done)))
  | k :: r =>
    match lookup_key k tbl with
    | None => (s, Some (Err EKey))
    | Some c =>
      match loop false n c s with
      | None => (s, None)
      | Some (s1, Finished v) => run_ready n r (remove_key k tbl) (done ++ [(k, v)]) s1
      | Some (s1, Blocked c1) => run_ready n r (update_key k c1 tbl) done s1
      | Some (s1, Raised e) => (s1, Some (Err e))
      end
    end
  end.

(** wait_for's while loop, win32.py:195-203, together with _wait_for_events (182-188).
    [choose] is the OS: in round [j], given the coroutines waiting for their events,
    WaitForMultipleObjects names one whose event is signalled.  A name that is not
    waiting corresponds to the error branch of win32.py:177-178.  [m] bounds the
    number of rounds. *)
Fixpoint react (n m : nat) (choose : nat -> list nat -> nat) (cmds : list nat) (tbl : table)
  (done : list (nat * res)) (s : S) : S * reactor_out :=
  match run_ready n cmds tbl done s with
  | (s1, None) => (s1, RBudget)
  | (s1, Some (Err e)) => (s1, RRaised e)
  | (s1, Some (Ok (tbl1, done1))) =>
    match tbl1 with
    | [] => (s1, RDone done1)
    | _ =>
      match m with
      | O => (s1, RBudget)
      | Datatypes.S m' =>
        let k := choose m' (map fst tbl1) in
        match lookup_key k tbl1 with
        | None => (s1, RRaised EAsiOS)
        | Some c =>
          match async_io_complete c s1 with
          | (s2, Err e) => (s2, RRaised e)
          | (s2, Ok c1) => react n m' choose [k] (update_key k c1 tbl1) done1 s2
          end
        end
      end
    end
  end.

(** wait_for's final sort, win32.py:205-209: results in the order of the commands. *)
Fixpoint collect (ks : list nat) (done : list (nat * res)) : result (list res) :=
  match ks with
  | [] => Ok []
  | k :: r =>
    match lookup_key k done with
    | None => Err EKey
    | Some v => do l <- collect r done; Ok (v :: l)
    end
  end.

(** As above: win32.py:205-209. *)
Definition keys (cmds : list gen) : list nat := seq 0 (length cmds).

(** Win32AsyncReactor.wait_for, win32.py:190-209 (reached from async_wait,
    sync_adapter.py:81-83). *)
Definition async_wait (n m : nat) (choose : nat -> list nat -> nat) (cmds : list gen) (s : S)
  : S * option (result (list res)) :=
  let ks := keys cmds in
  match react n m choose ks (combine ks (map coroutine_init cmds)) [] s with
  | (s1, RBudget) => (s1, None)
  | (s1, RRaised e) => (s1, Some (Err e))
  | (s1, RDone done) => (s1, Some (collect ks done))
  end.

(** async_wait with generator objects that may be the same: [objs] names the object at each
    position, [body] is what it runs.  The dictionary has one coroutine for each object
    (win32.py:191), while the loops go over all positions (win32.py:192-198, 205-209).  In [async_wait] above the objects are all different. *)
Fixpoint distinct (l : list nat) : list nat :=
  match l with
  | [] => []
  | k :: r => k :: filter (fun j => negb (Nat.eqb j k)) (distinct r)
  end.
(** As above: win32.py:190-209. *)
Definition async_wait_objects (n m : nat) (choose : nat -> list nat -> nat) (objs : list nat) (body : nat -> gen) (s : S)
  : S * option (result (list res)) :=
  match react n m choose objs (map (fun k => (k, coroutine_init (body k))) (distinct objs)) [] s with
  | (s1, RBudget) => (s1, None)
  | (s1, RRaised e) => (s1, Some (Err e))
  | (s1, RDone done) => (s1, Some (collect objs done))
  end.

End GenDefs.

Arguments val : clear implicits.
Arguments input : clear implicits.
Arguments token : clear implicits.
Arguments gen : clear implicits.
Arguments res : clear implicits.
Arguments cor : clear implicits.
Arguments outcome : clear implicits.
Arguments pyobj : clear implicits.
Arguments yielded : clear implicits.
Arguments YVal {S D G} v.
Arguments YGen {S D G} c.
Arguments YTok {S D G} t.
Arguments event : clear implicits.
Arguments Stop {S D G}.
Arguments Raise {S D G} e.
Arguments Yield {S D G} y k.
