(** User programs run together by async_wait on Windows, each on a device of its own that was opened for
    asynchronous use. *)
From Coq Require Import ZArith List Bool.
From Verif Require Import Base Gen SpecGen Executer OsCommon OsWin32 SpecSg SpecDrivers SpecSession Instruct Command
  SpecDevice SpecExecute Sense SpecAdaptive.
Import ListNotations.
Local Open Scope Z_scope.

(** A program, the device it runs on, the executer with which it does, the states of the device before
    and after, and the result. *)
Record member (T : Type) : Type := Member {
  device : target T;
  program : prog;
  before : T;
  after : T;
  result_alone : result pyval;
  executer_of : executer spt (win_world T)
}.
Arguments Member {T}. Arguments device {T}. Arguments program {T}. Arguments before {T}. Arguments after {T}.
Arguments result_alone {T}. Arguments executer_of {T}.

(** The member alone: nothing is queued on the executer, and with the device in the first state
    the program gets the result and leaves the device in the second. *)
Definition alone {T} (m : member T) : Prop :=
  win_idle (executer_of m) (before m) /\ does (device m) false (before m) (program m) (after m) (result_alone m).

(** The coroutine handed to async_wait: the program over a Win32CommandExecuter with a Win32AsyncFile (win32.py:152-170, 360-387). *)
Definition running {T} (m : member T) : gen (executer spt (win_world T)) (dval (wire unit pyval)) :=
  coroutine (win_async_os parse_sense (honest_win (device m))) (program m).

(** try: yield program() ... except e: yield [handler e]. *)
Definition guarded (handler : exn -> pyval) (p : prog) : prog :=
  Call p (fun r => Return (match r with Ok v => v | Err e => handler e end)).

(** All have a value / the values. *)
Definition value_of {T} (m : member T) : pyval := match result_alone m with Ok v => v | Err _ => PNone end.
Definition returns_value {T} (m : member T) : Prop := exists v, result_alone m = Ok v.
(** What async_wait hands over for the members that have values. *)
Definition fleet_results {T} (ms : list (member T)) : list (res (list (executer spt (win_world T))) (dval (wire unit pyval))) :=
  map (fun m => RVal (yielded_value (value_of m))) ms.
(** The member with its program in try ... except. *)
Definition guard {T} (handler : exn -> pyval) (m : member T) : member T :=
  Member (device m) (guarded handler (program m)) (before m) (after m)
    (Ok (match result_alone m with Ok v => v | Err e => handler e end)) (executer_of m).
