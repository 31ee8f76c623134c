(** Transfers of any size, 4 GiB and more included: the request structures of Linux (sg_io_hdr_t) and
    Windows (SCSI_PASS_THROUGH_DIRECT) count the bytes of a transfer in 32 bits. *)
From Coq Require Import ZArith List Bool.
From Verif Require Import Base Executer OsCommon OsLinux SpecSg SpecDrivers SpecIoctl.
Import ListNotations.
Local Open Scope Z_scope.

(** The number of bytes that such a structure announces for a buffer of [n] bytes. *)
Definition announced (n : Z) : Z := n mod 2 ^ 32.
Definition front (n : Z) (data : bytes) : bytes := firstn (Z.to_nat (announced n)) data.

(** The device behind such a structure gets the front of the data-out only. *)
Definition cut_short {T} (tgt : target T) : target T := fun t cdb data => tgt t cdb (front (zlen data) data).

(** The datagram of a successful command on Linux: a buffer of the size asked for, of which only the front is filled;
    nothing if the structure announces no bytes. *)
Definition front_wanted (c : scsi_command) (data : bytes) : option bytes :=
  match c with
  | ReadCmd _ n => if (0 <? n) && (0 <? announced n) then Some (pad (Z.to_nat n) (front n data)) else None
  | WriteCmd _ _ => None
  end.
Definition linux_any (c : scsi_command) (a : answer) : resp :=
  if is_check_condition (a_status a) (a_driver a) then RespExn (EAsiCheckCondition (pad 255 (a_sense a)))
  else if is_clean (a_status a) (a_host a) (a_driver a) then RespData (front_wanted c (a_data a))
  else RespExn (linux_error (a_status a) (a_host a)).
Definition ioctl_any (c : scsi_command) (a : answer) : resp := RespData (front_wanted c (a_data a)).

(** On Windows: the bytes that were transferred, nothing if there were none. *)
Definition win_front (c : scsi_command) (data : bytes) : option bytes :=
  match c with
  | ReadCmd _ n => if (0 <? n) && (0 <? zlen (front n data)) then Some (front n data) else None
  | WriteCmd _ _ => None
  end.
Definition win_any (c : scsi_command) (a : answer) : resp :=
  if a_status a =? 0 then RespData (win_front c (a_data a))
  else if a_status a =? 2 then RespExn (EAsiCheckCondition (pad 255 (a_sense a)))
  else RespExn EAsiSCSI.
