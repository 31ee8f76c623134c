(** Devices that need time, and systems that give up after the time the request allows:
    each pass-through interface with its own unit. *)
From Coq Require Import ZArith List Bool.
From Verif Require Import Base Gen SpecGen Executer OsCommon OsLinux OsSolaris OsAix OsWin32 SpecSg SpecDrivers SpecSession
  Sense SpecSense SpecPortable Contexts.
Import ListNotations.
Local Open Scope Z_scope.

(** A target that takes time: new state, answer, and milliseconds needed. *)
Definition timed_target (T : Type) := T -> bytes -> bytes -> T * answer * Z.

(** No limit, or so many milliseconds. *)
Definition late (limit : option Z) (ms : Z) : bool :=
  match limit with None => false | Some l => l <? ms end.
Definition over_at (limit : option Z) (ms : Z) : Z :=
  match limit with None => ms | Some l => Z.min l ms end.
(** A command given up: no status, no data, host status 3 (DID_TIME_OUT, linux.py:99). *)
Definition given_up : answer := Answer 0 3 0 [] [].

(** The units: sg.h counts milliseconds, all ones being no limit and zero the driver's
    default; uscsi(7I), the AIX and the Windows structure count seconds, zero being none. *)
Definition sg_limit (default : Z) (q : sg_hdr) : option Z :=
  if hdr_timeout q =? 4294967295 then None else if hdr_timeout q =? 0 then Some default else Some (hdr_timeout q).
Definition seconds (n : Z) : option Z := if n <=? 0 then None else Some (1000 * n).

(** A machine: the sg driver's default, how long UnixFile.read polls before it gives up
    (60 seconds at least, unix.py:9-24), which ioctl is used on AIX (aix.py:344-361), and the
    state a device is in after a command was aborted. *)
Record machine (T : Type) : Type := Machine {
  sg_default : Z;
  patience : Z;
  by_ctypes : bool;
  aborted : T -> T
}.
Arguments Machine {T} _ _ _ _.
Arguments sg_default {T} _.
Arguments patience {T} _.
Arguments by_ctypes {T} _.
Arguments aborted {T} _ _.

Section Timed.
Context {T : Type} (tgt : timed_target T) (m : machine T).

(** The device under a limit. *)
Definition within (limit : option Z) : target T := fun t c d =>
  let '(t', a, ms) := tgt t c d in if late limit ms then (aborted m t, given_up) else (t', a).
Definition duration (t : T) (c : scsi_command) : Z := snd (tgt t (command_of c) (data_out c)).

(** The sg driver: a completed command can be read when it is over; a reader does not wait
    for ever.  The ioctl waits. *)
Definition timed_write (q : sg_hdr) (h : heap) (d : T * list (sg_hdr * answer * Z)) :
  heap * (T * list (sg_hdr * answer * Z)) * result Z :=
  let limit := sg_limit (sg_default m) q in
  let (t', a) := within limit (fst d) (described_cdb q h) (described_data q h) in
  let ms := snd (tgt (fst d) (described_cdb q h) (described_data q h)) in
  (h, (t', snd d ++ [(q, a, over_at limit ms)]), Ok 88).
Definition timed_read (h : heap) (d : T * list (sg_hdr * answer * Z)) :
  heap * (T * list (sg_hdr * answer * Z)) * result (option sg_hdr) :=
  match snd d with
  | [] => (h, d, Err (EIO 0))
  | (q, a, over) :: rest =>
    if patience m <? over then (h, d, Err (EIO 0))
    else (completed_mem q a h, (fst d, rest), Ok (Some (completed_hdr q a)))
  end.
Definition timed_ioctl (q : sg_hdr) (h : heap) (d : T * list (sg_hdr * answer * Z)) :
  heap * (T * list (sg_hdr * answer * Z)) * result sg_hdr :=
  let (t', a) := within (sg_limit (sg_default m) q) (fst d) (described_cdb q h) (described_data q h) in
  (completed_mem q a h, (t', snd d), Ok (completed_hdr q a)).
Definition timed_sg : sg_driver (T * list (sg_hdr * answer * Z)) := SgDriver timed_write timed_read timed_ioctl.

(** The other interfaces block; a command given up makes the ioctl fail on Solaris and
    Windows, and is an adapter error on AIX. *)
Definition timed_uscsi : uscsi_driver T := fun q h t =>
  honest_uscsi (within (seconds (uscsi_timeout q))) (fun a => negb (a_host a =? 0)) q h t.
Definition timed_sc : sc_driver T := fun q h t => honest_sc (within (seconds (timeout_value q))) q h t.
Definition timed_win : win_driver T :=
  WinDriver (fun q h t => honest_control (within (seconds (TimeOutValue q))) q h t)
    (fun q h t => honest_start q h t) (fun q h t => honest_finish (within (seconds (TimeOutValue q))) q h t).

(** [asks k c t rp t']: the executer [k] (class and timeout argument), just constructed on a
    device in state [t], is called once with [c]; sync_wait gives what [user_sees rp] says,
    and the device is left in state [t']. *)
Definition asks (k : executer_class * option Z) (c : scsi_command) (t : T) (rp : resp) (t' : T) : Prop :=
  let n := default_queue (fst k) in
  match fst k with
  | CLinux => exists s', sync_wait_ends (call (linux_os (A := unit) parse_sense timed_sg (timeout_of k)) 0%nat c)
      (executer_init n (LinuxWorld [] (t, []) None)) s' (user_sees rp) /\ fst (l_dev (world s')) = t'
  | CLinuxIoctl => exists s', sync_wait_ends (call (linux_ioctl_os (A := unit) parse_sense timed_sg (timeout_of k)) 0%nat c)
      (executer_init n (LinuxWorld [] (t, []) None)) s' (user_sees rp) /\ fst (l_dev (world s')) = t'
  | CSolaris => exists s', sync_wait_ends (call (solaris_os (A := unit) parse_sense timed_uscsi (timeout_of k)) 0%nat c)
      (executer_init n (SolarisWorld [] t None)) s' (user_sees rp) /\ s_dev (world s') = t'
  | CAix => exists s', sync_wait_ends (call (aix_os (A := unit) parse_sense timed_sc (timeout_of k) (by_ctypes m)) 0%nat c)
      (executer_init n (AixWorld [] [] t None)) s' (user_sees rp) /\ x_dev (world s') = t'
  | CWin32 => exists s', sync_wait_ends (call (win_os (A := unit) parse_sense timed_win) 0%nat c)
      (executer_init n (WinWorld [] [] t [])) s' (user_sees rp) /\ w_dev (world s') = t'
  end.
End Timed.

(** Answers of a device that was reached, with sense data the library understands. *)
Definition reached (a : answer) : Prop :=
  a_host a = 0 /\ byte_status a /\ (a_status a <> 0 \/ a_driver a <> 0 -> conforming_sense (a_sense a)).

(** The command got an answer in time. *)
Definition answer_shown (k : executer_class) (c : scsi_command) (a : answer) : resp :=
  match k with
  | CLinux => linux_expected c a
  | CLinuxIoctl => RespData (data_wanted c (a_data a))
  | CSolaris => solaris_expected c a
  | CAix => aix_expected c a
  | CWin32 => win_expected c a
  end.
(** The command was given up. *)
Definition failure_shown (k : executer_class) (c : scsi_command) : resp :=
  match k with
  | CLinux | CAix => RespExn EAsiSCSI
  | CLinuxIoctl => RespData (data_wanted c [])
  | CSolaris => RespExn (EIO 5)
  | CWin32 => RespExn EAsiOS
  end.

(** The limit in milliseconds, by context manager and system. *)
Definition limit_ms (m : manager) (p : platform) : Z :=
  match p, m with
  | PWindows, _ => 10 * 1000
  | PLinux, MLinuxSg => 3 * 1000
  | PLinux, _ => 30 * 1000
  | _, MLinuxSg => 3000 * 1000
  | _, _ => 30 * 1000
  end.
(** The executer, by context manager and system. *)
Definition executer_shown (m : manager) (p : platform) : option executer_class :=
  match p, m with
  | POther, _ => None
  | _, MLinuxDm => Some CLinuxIoctl
  | PWindows, MLinuxSg => None
  | PWindows, _ => Some CWin32
  | PLinux, _ => Some CLinux
  | PSolaris, _ => Some CSolaris
  | PAix, _ => Some CAix
  end.
(** And the file it works on. *)
Definition file_shown (p : platform) : file_class :=
  match p with PWindows => CWin32File | PSolaris => CUnixFile true | _ => CUnixFile false end.

(** The time allowed by an executer: milliseconds on Linux, seconds on Solaris and AIX, ten
    seconds on Windows. *)
Definition allowed (default : Z) (k : executer_class * option Z) : option Z :=
  match fst k with
  | CLinux | CLinuxIoctl =>
    if timeout_of k =? 4294967295 then None else if timeout_of k =? 0 then Some default else Some (timeout_of k)
  | CSolaris | CAix => if timeout_of k =? 0 then None else Some (1000 * timeout_of k)
  | CWin32 => Some 10000
  end.
(** Timeouts that the field of the request can hold. *)
Definition holds_timeout (k : executer_class * option Z) : Prop :=
  match fst k with
  | CLinux | CLinuxIoctl | CAix => 0 <= timeout_of k < 4294967296
  | CSolaris => 0 <= timeout_of k < 32768
  | CWin32 => True
  end.
