(** Choosing the platform (src/infi/asi/__init__.py) and the context managers of
    src/infi/asi/executers.py. *)
From Coq Require Import ZArith List Bool.
From Verif Require Import Base.
Import ListNotations.
Open Scope Z_scope.

(** get_platform_name, __init__.py:180-182: the strings that the code compares with. *)
Inductive platform : Type := PWindows | PLinux | PSolaris | PAix | POther.

(** The classes of file objects and executers that the code can choose. [__init__.py:199-217] *)
Inductive file_class : Type := CWin32File | CUnixFile (nonblocking : bool) | CWin32AsyncFile.
(** [__init__.py:184-197, executers.py:22] *)
Inductive executer_class : Type := CWin32 | CLinux | CLinuxIoctl | CSolaris | CAix.

(** create_platform_command_executer, __init__.py:184-197: the class. *)
Definition executer_for (p : platform) : result executer_class :=
  match p with
  | PWindows => Ok CWin32
  | PLinux => Ok CLinux
  | PSolaris => Ok CSolaris
  | PAix => Ok CAix
  | POther => Err EAsiGeneric
  end.
(** Signatures of the constructors: all but win32.py:361 have an argument timeout
    (linux.py:217, solaris.py:188, aix.py:364). *)
Definition construct (k : executer_class) (timeout : option Z) : result (executer_class * option Z) :=
  match k, timeout with
  | CWin32, Some _ => Err EType
  | _, _ => Ok (k, timeout)
  end.
(** create_platform_command_executer(handle, ...), __init__.py:184-197. *)
Definition create_platform_command_executer (p : platform) (timeout : option Z) : result (executer_class * option Z) :=
  do k <- executer_for p; construct k timeout.
(** create_os_file, __init__.py:199-210: the class of the file object. *)
Definition create_os_file (p : platform) : result file_class :=
  match p with
  | PWindows => Ok CWin32File
  | PLinux | PAix => Ok (CUnixFile false)
  | PSolaris => Ok (CUnixFile true)
  | POther => Err EAsiGeneric
  end.
(** create_async_os_file, __init__.py:212-217. *)
Definition create_async_os_file (p : platform) : result file_class :=
  match p with PWindows => Ok CWin32AsyncFile | _ => Err EAsiGeneric end.

(** create_os_async_reactor, __init__.py:219-224. *)
Definition create_os_async_reactor (p : platform) : result unit :=
  match p with PWindows => Ok tt | _ => Err EAsiGeneric end.

(** The five context managers. [executers.py:11-59] *)
Inductive manager : Type := MWindows | MLinuxDm | MLinuxSg | MSolaris | MAix.

(** The second statement of each (executers.py:13, 25, 35, 45, 55). *)
Definition make_executer (m : manager) (p : platform) : result (executer_class * option Z) :=
  match m with
  | MLinuxDm => construct CLinuxIoctl None
  | MLinuxSg => create_platform_command_executer p (Some 3000)
  | MWindows | MSolaris | MAix => create_platform_command_executer p None
  end.

(** Effects on the device handle, in order (specification vocabulary). [executers.py:11-59] *)
Inductive handle_event : Type := Opened (f : file_class) | Closed.

(** A generator-based context manager, as contextlib (and infi.pyutils.contexts, which
    wraps it) sees it: entering runs to the yield, leaving resumes it with nothing or
    with the exception of the body. *)
Record suspended : Type := Suspended {
  yielded : executer_class * option Z;
  resume_normally : list handle_event * result unit;
  resume_throwing : exn -> list handle_event * result unit
}.
(** executers.py:9-59 up to the yield.  [open_result]: os.open / CreateFile;
    [close_result]: handle.close(). *)
Definition enter (m : manager) (p : platform) (open_result close_result : result unit) :
  list handle_event * result suspended :=
  match create_os_file p with
  | Err e => ([], Err e)
  | Ok f =>
    match open_result with
    | Err e => ([], Err e)
    | Ok _ =>
      match make_executer m p with
      | Err e => ([Opened f], Err e)
      | Ok k =>
        ([Opened f], Ok (Suspended k
          ([Closed], close_result)                              (* finally, then the end *)
          (fun e => ([Closed],
             match close_result with Ok _ => Err e | Err e2 => Err e2 end))))
      end
    end
  end.

(** The with statement: [body] gets the executer; if the generator ends normally after an
    exception was thrown into it the exception is swallowed (that does not happen here).
    [executers.py:11-59] *)
Definition with_statement {V} (m : manager) (p : platform) (open_result close_result : result unit)
    (body : executer_class * option Z -> result V) : list handle_event * result V :=
  match enter m p open_result close_result with
  | (l, Err e) => (l, Err e)
  | (l, Ok g) =>
    match body (yielded g) with
    | Ok v => let (l2, r) := resume_normally g in
              (l ++ l2, match r with Ok _ => Ok v | Err e => Err e end)
    | Err e => let (l2, r) := resume_throwing g e in
               (l ++ l2, match r with Ok _ => Err e | Err e2 => Err e2 end)
    end
  end.

(** The attribute timeout of the executer a manager yields: the argument, or the default of
    the constructor, DEFAULT_TIMEOUT for the Linux classes and DEFAULT_TIMEOUT_IN_SEC for
    the two others ([__init__.py:26-27, linux.py:217, 280, solaris.py:188, aix.py:364]);
    Win32CommandExecuter has no such attribute (win32.py:361). *)
Definition default_timeout (k : executer_class) : Z :=
  match k with CLinux | CLinuxIoctl => 30 * 1000 | CSolaris | CAix => 30 | CWin32 => 0 end.
(** [linux.py:220, 283, solaris.py:191, aix.py:367] *)
Definition timeout_of (k : executer_class * option Z) : Z :=
  match snd k with Some t => t | None => default_timeout (fst k) end.
(** The default of max_queue_size. [__init__.py:25, linux.py:217, 280, solaris.py:188, aix.py:364, win32.py:361] *)
Definition default_queue (k : executer_class) : Z :=
  match k with CLinux | CWin32 => 15 | CLinuxIoctl | CSolaris | CAix => 1 end.
