(** File objects: UnixFile (src/infi/asi/unix.py) and opening and closing of Win32File
    (src/infi/asi/win32.py). *)
From Coq Require Import ZArith List Bool.
From Verif Require Import Base.
Import ListNotations.
Open Scope Z_scope.

(** What the OS answers: the i-th reading of time.time() (in any fixed unit; Python floats
    are simplified to integers), the i-th select.select([fd], [], [], 0) (may raise), and
    os.read(fd, size). [unix.py:16, 19, 21, 24] *)
Record io_env : Type := IoEnv {
  clock : nat -> Z;
  select : nat -> result bool;
  os_read : Z -> result bytes
}.

(** Calls made to the OS, in order (specification vocabulary). [unix.py:15-24] *)
Inductive io_event : Type :=
| Polled (ready : bool)
| Slept
| LookedAtClock (t : Z)
| ReadFd (size : Z).

(** UnixFile.read, unix.py:15-24: the loop, from the i-th poll on; None if it takes more
    than [fuel] polls.  Also returns the calls made. *)
Fixpoint read_loop (env : io_env) (deadline size : Z) (fuel i : nat) : option (list io_event * result bytes) :=
  match fuel with
  | O => None
  | S fuel' =>
    match select env i with
    | Err e => Some ([], Err e)
    | Ok true => Some ([Polled true; ReadFd size], os_read env size)
    | Ok false =>
      let t := clock env (S i) in
      if deadline <? t then Some ([Polled false; Slept; LookedAtClock t], Err (EIO 0))
      else match read_loop env deadline size fuel' (S i) with
           | None => None
           | Some (l, r) => Some (Polled false :: Slept :: LookedAtClock t :: l, r)
           end
    end
  end.
(** UnixFile.read, unix.py:15-24. The IOError of a timeout has no errno: code 0. *)
Definition unix_read (env : io_env) (timeout size : Z) (fuel : nat) : option (list io_event * result bytes) :=
  let start_time := clock env 0 in
  match read_loop env (start_time + timeout) size fuel 0 with
  | None => None
  | Some (l, r) => Some (LookedAtClock start_time :: l, r)
  end.

(** Open handles of the process and the handles closed so far.
    [unix.py:11-12, 29-30, win32.py:114-127] *)
Record handles : Type := Handles { opened : list Z; closed : list Z }.

(** UnixFile.close, unix.py:29-30: os.close(fd); 9 is EBADF. *)
Definition unix_close (fd : Z) (h : handles) : handles * result unit :=
  if existsb (Z.eqb fd) (opened h)
  then (Handles (filter (fun x => negb (x =? fd)) (opened h)) (closed h ++ [fd]), Ok tt)
  else (h, Err (EIO 9)).

(** Win32File.close, win32.py:122-127: [handle] is the attribute; afterwards -1.  [ok] is
    the result of CloseHandle. *)
Definition win_close (handle : Z) (ok : Z -> bool) (h : handles) : handles * Z * result unit :=
  if handle =? -1 then (h, handle, Ok tt)
  else if ok handle then (Handles (filter (fun x => negb (x =? handle)) (opened h)) (closed h ++ [handle]), -1, Ok tt)
  else (h, handle, Err EAsiOS).
