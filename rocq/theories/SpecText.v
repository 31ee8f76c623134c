(** Specification of what a reader finds in an error text: the number printed after a label, the
    name printed there; and the names that SAM-5 gives to the status codes. *)
From Coq Require Import String Ascii ZArith List Bool.
Import ListNotations.
Local Open Scope string_scope.
Local Open Scope Z_scope.

(** Value of a lower case digit. *)
Definition digit_value (c : ascii) : option Z :=
  let n := Z.of_nat (nat_of_ascii c) in
  if (48 <=? n) && (n <=? 57) then Some (n - 48)
  else if (97 <=? n) && (n <=? 102) then Some (n - 87) else None.

(** The number at the start of a text, as far as its digits go. *)
Fixpoint number_from (base v : Z) (t : string) : Z :=
  match t with
  | String c r => match digit_value c with
                  | Some d => if d <? base then number_from base (base * v + d) r else v
                  | None => v
                  end
  | EmptyString => v
  end.

(** What follows the first occurrence of [label] in [t]. *)
Fixpoint drop (n : nat) (t : string) : string :=
  match n, t with Datatypes.S k, String _ r => drop k r | _, _ => t end.
Fixpoint starts (label t : string) : bool :=
  match label, t with
  | EmptyString, _ => true
  | String a l, String b r => if ascii_dec a b then starts l r else false
  | _, _ => false
  end.
Fixpoint after (label t : string) : option string :=
  if starts label t then Some (drop (String.length label) t)
  else match t with String _ r => after label r | EmptyString => None end.

(** The text up to the first blank. *)
Fixpoint word (t : string) : string :=
  match t with
  | String c r => if Ascii.eqb c " " then EmptyString else String c (word r)
  | EmptyString => EmptyString
  end.

(** [NAME 0xNN] printed after the label: the number and the name. *)
Definition hex_after (label t : string) : option Z :=
  match after label t with
  | Some r => match after "0x" r with Some n => Some (number_from 16 0 n) | None => None end
  | None => None
  end.
Definition name_after (label t : string) : option string := option_map word (after label t).
(** A decimal number right after the label. *)
Definition decimal_after (label t : string) : option Z := option_map (number_from 10 0) (after label t).

(** Status codes of SAM-5, 5.3.1. *)
Definition sam_status (code : Z) : string :=
  if code =? 0 then "SCSI_STATUS_GOOD"
  else if code =? 2 then "SCSI_STATUS_CHECK_CONDITION"
  else if code =? 4 then "SCSI_STATUS_CONDITION_MET"
  else if code =? 8 then "SCSI_STATUS_BUSY"
  else if code =? 24 then "SCSI_STATUS_RESERVATION_CONFLICT"
  else if code =? 40 then "SCSI_STATUS_TASK_SET_FULL"
  else if code =? 48 then "SCSI_STATUS_ACA_ACTIVE"
  else if code =? 64 then "SCSI_STATUS_TASK_ABORTED"
  else "".
(** Host adapter codes of the Linux SCSI layer (scsi/scsi_status.h). *)
Definition linux_host (code : Z) : string :=
  if code =? 0 then "SG_ERR_DID_OK"
  else if code =? 1 then "SG_ERR_DID_NO_CONNECT"
  else if code =? 2 then "SG_ERR_DID_BUS_BUSY"
  else if code =? 3 then "SG_ERR_DID_TIME_OUT"
  else if code =? 4 then "SG_ERR_DID_BAD_TARGET"
  else if code =? 5 then "SG_ERR_DID_ABORT"
  else if code =? 6 then "SG_ERR_DID_PARITY"
  else if code =? 7 then "SG_ERR_DID_ERROR"
  else if code =? 8 then "SG_ERR_DID_RESET"
  else if code =? 9 then "SG_ERR_DID_BAD_INTR"
  else if code =? 10 then "SG_ERR_DID_PASSTHROUGH"
  else if code =? 11 then "SG_ERR_DID_SOFT_ERROR"
  else "".
(** Driver codes. *)
Definition linux_driver (code : Z) : string :=
  if code =? 0 then "SG_ERR_DRIVER_OK"
  else if code =? 1 then "SG_ERR_DRIVER_BUSY"
  else if code =? 2 then "SG_ERR_DRIVER_SOFT"
  else if code =? 3 then "SG_ERR_DRIVER_MEDIA"
  else if code =? 4 then "SG_ERR_DRIVER_ERROR"
  else if code =? 5 then "SG_ERR_DRIVER_INVALID"
  else if code =? 6 then "SG_ERR_DRIVER_TIMEOUT"
  else if code =? 7 then "SG_ERR_DRIVER_HARD"
  else "".
(** Codes of AIX (sys/scsi_buf.h): which status is valid, with the message for it, and the status of the adapter. *)
Definition aix_validity (code : Z) : string :=
  if code =? 1 then "SC_SCSI_ERROR" else if code =? 2 then "SC_ADAPTER_ERROR" else "".
Definition aix_message (code : Z) : string :=
  if code =? 1 then "SCSI bus response status is not zero,"
  else if code =? 2 then "SCSI adapter response status is not zero,"
  else "SCSI response status validity unknown,".
Definition aix_adapter (code : Z) : string :=
  if code =? 1 then "SCSI_HOST_IO_BUS_ERR"
  else if code =? 2 then "SCSI_TRANSPORT_FAULT"
  else if code =? 3 then "SCSI_CMD_TIMEOUT"
  else if code =? 4 then "SCSI_NO_DEVICE_RESPONSE"
  else if code =? 5 then "SCSI_ADAPTER_HDW_FAILURE"
  else if code =? 6 then "SCSI_ADAPTER_SFW_FAILURE"
  else if code =? 7 then "SCSI_WW_NAME_CHANGE"
  else if code =? 8 then "SCSI_FUSE_OR_TERMINAL_PWR"
  else if code =? 9 then "SCSI_TRANSPORT_RESET"
  else if code =? 10 then "SCSI_TRANSPORT_BUSY"
  else if code =? 11 then "SCSI_TRANSPORT_DEAD"
  else if code =? 12 then "SCSI_VERIFY_DEVICE"
  else if code =? 13 then "SCSI_TRANSPORT_MIGRATED"
  else if code =? 14 then "SCSI_ERROR_NO_RETRY"
  else if code =? 15 then "SCSI_ERROR_DELAY_LOG"
  else "".
