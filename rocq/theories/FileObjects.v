(** File objects and the handle table of the process: which device a file object reaches. *)
From Coq Require Import ZArith List Bool.
From Verif Require Import Base.
Import ListNotations.
Local Open Scope Z_scope.
Local Open Scope list_scope.

(** What a handle of the process stands for: a device, or an event of CreateEventW.
    [unix.py:11, win32.py:118, 159] *)
Inductive thing (D : Type) : Type := Dev (d : D) | Event.
Arguments Dev {D} d. Arguments Event {D}.
(** The open handles of the process. [as above: unix.py:11, win32.py:118, 159] *)
Definition table (D : Type) := list (Z * thing D).
(** As above: unix.py:11, win32.py:118, 159. *)
Definition find {D} (h : Z) (t : table D) : option (thing D) :=
  match List.find (fun e => fst e =? h) t with Some (_, x) => Some x | None => None end.
(** As above: unix.py:30, win32.py:125. *)
Definition drop {D} (h : Z) (t : table D) : table D := filter (fun e => negb (fst e =? h)) t.

(** The classes: UnixFile (unix.py:8-30), Win32File (win32.py:112-135), Win32AsyncFile (win32.py:152-171). *)
Inductive kind : Type := KUnix | KWin | KWinAsync.

(** Outcome of a call: the request reached the device, the call returned, or it raised.
    [unix.py:24, 27, 30, win32.py:122-135, 162-171] *)
Inductive outcome (D : Type) : Type := Reached (d : D) | Returned | Raised (e : exn).
Arguments Reached {D} d. Arguments Returned {D}. Arguments Raised {D} e.

Section Calls.
Context {D : Type}.
(** The number the OS gives to a new handle, from those in use: os.open (__init__.py:206, 209), CreateFile
    (win32.py:118), CreateEventW (win32.py:159), the n-th time it is asked.  That a handle can be had is assumed. *)
Context (pick : nat -> list Z -> Z).

(** A new entry. [as above: __init__.py:206, 209, win32.py:118, 159] *)
Definition add (n : nat) (x : thing D) (t : table D) : table D * Z :=
  let h := pick n (map fst t) in ((h, x) :: t, h).

(** create_os_file / create_async_os_file, __init__.py:199-217: the table and the attribute fd (unix.py:12)
    or handle (win32.py:118) of the new object. *)
Definition open_file (n : nat) (d : D) (t : table D) : table D * Z := add n (Dev d) t.

(** UnixFile.close (unix.py:29-30; 9 is EBADF) and Win32File.close (win32.py:122-127): the table and the attribute
    afterwards. CloseHandle of an open handle is taken to succeed. *)
Definition close_file (k : kind) (h : Z) (t : table D) : table D * Z * outcome D :=
  match k with
  | KUnix => match find h t with
             | Some _ => (drop h t, h, Returned)
             | None => (t, h, Raised (EIO 9))
             end
  | KWin | KWinAsync =>
    if h =? -1 then (t, h, Returned)
    else match find h t with
         | Some _ => (drop h t, -1, Returned)
         | None => (t, h, Raised EAsiOS)
         end
  end.

(** UnixFile.write and read, and fcntl.ioctl on its fd (unix.py:15-27, linux.py:289), Win32File.ioctl (win32.py:129-135),
    Win32AsyncFile.ioctl (win32.py:158-171): a new event each time, closed nowhere.  A request to an event
    handle fails. *)
Definition use_file (n : nat) (k : kind) (h : Z) (t : table D) : table D * outcome D :=
  match k with
  | KUnix => (t, match find h t with Some (Dev d) => Reached d | _ => Raised (EIO 9) end)
  | KWin => (t, match find h t with Some (Dev d) => Reached d | _ => Raised EAsiOS end)
  | KWinAsync =>
    let (t1, _) := add n Event t in
    (t1, match find h t1 with Some (Dev d) => Reached d | _ => Raised EAsiOS end)
  end.

(** What a program does with file objects, numbered in the order in which they were made. [unix.py, win32.py as above] *)
Inductive action : Type := AOpen (d : D) | AClose (f : nat) | AUse (f : nat).

(** The table, the attributes fd/handle of the objects, and how many calls there were. [unix.py:12, win32.py:118, 127] *)
Record process : Type := Process { handles_of : table D; objects : list Z; calls : nat }.

(** [as above: unix.py:8-30, win32.py:112-171] *)
Fixpoint set_at (f : nat) (h : Z) (l : list Z) : list Z :=
  match l, f with
  | [], _ => []
  | _ :: r, O => h :: r
  | x :: r, S f' => x :: set_at f' h r
  end.
(** One call. [as above: unix.py:8-30, win32.py:112-171] *)
Definition act (k : kind) (a : action) (p : process) : process * outcome D :=
  match a with
  | AOpen d => let (t, h) := open_file (calls p) d (handles_of p) in (Process t (objects p ++ [h]) (S (calls p)), Returned)
  | AClose f =>
    match nth_error (objects p) f with
    | None => (p, Raised EIndex)
    | Some h => let '(t, h', o) := close_file k h (handles_of p) in (Process t (set_at f h' (objects p)) (S (calls p)), o)
    end
  | AUse f =>
    match nth_error (objects p) f with
    | None => (p, Raised EIndex)
    | Some h => let (t, o) := use_file (calls p) k h (handles_of p) in (Process t (objects p) (S (calls p)), o)
    end
  end.
(** A program. [as above: unix.py:8-30, win32.py:112-171] *)
Fixpoint acts (k : kind) (l : list action) (p : process) : process * list (outcome D) :=
  match l with
  | [] => (p, [])
  | a :: r => let (p1, o) := act k a p in let (p2, os) := acts k r p1 in (p2, o :: os)
  end.
End Calls.
Arguments action D : clear implicits.
Arguments process D : clear implicits.
