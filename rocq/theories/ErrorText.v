(** Texts of the errors that the executers make of a status: prettify_status and the
    messages in linux.py, solaris.py, aix.py and win32.py. *)
From Coq Require Import String Ascii ZArith List Bool.
From Verif Require Import Base OsCommon OsLinux OsSolaris OsAix OsWin32.
Import ListNotations.
Local Open Scope string_scope.
Local Open Scope Z_scope.

(** One digit as printed by %x and %d. [linux.py:115] *)
Definition digit_char (d : Z) : ascii :=
  if d <? 10 then ascii_of_nat (48 + Z.to_nat d) else ascii_of_nat (87 + Z.to_nat d).

(** The digits of a number that is not negative, put in front of [acc]; [fuel] is larger than
    the number of digits. [linux.py:115] *)
Fixpoint digits_from (fuel : nat) (base v : Z) (acc : string) : string :=
  match fuel with
  | 0%nat => acc
  | Datatypes.S k =>
    let acc' := String (digit_char (v mod base)) acc in
    if v <? base then acc' else digits_from k base (v / base) acc'
  end.
(** As above: linux.py:115. *)
Definition digits (base v : Z) : string := digits_from (Datatypes.S (Z.to_nat v)) base v "".

(** "%02x" of a number that is not negative. [linux.py:115] *)
Definition hex02 (v : Z) : string :=
  let t := digits 16 v in if (String.length t <? 2)%nat then "0" ++ t else t.

(** [key for key, value in status_dict.items() if value == code] or [''], its first element.
    The order of the dictionary does not matter, because no value occurs twice. [linux.py:114] *)
Fixpoint code_string (code : Z) (status_dict : list (string * Z)) : string :=
  match status_dict with
  | [] => ""
  | (key, value) :: r => if value =? code then key else code_string code r
  end.

(** prettify_status, linux.py:113-115. *)
Definition prettify_status (code : Z) (status_dict : list (string * Z)) : string :=
  code_string code status_dict ++ " 0x" ++ hex02 code.

(** SCSI_STATUS_CODES, __init__.py:14-23. *)
Definition SCSI_STATUS_CODES : list (string * Z) :=
  [("SCSI_STATUS_GOOD", 0); ("SCSI_STATUS_CHECK_CONDITION", 2); ("SCSI_STATUS_CONDITION_MET", 4);
   ("SCSI_STATUS_BUSY", 8); ("SCSI_STATUS_RESERVATION_CONFLICT", 24); ("SCSI_STATUS_TASK_SET_FULL", 40);
   ("SCSI_STATUS_ACA_ACTIVE", 48); ("SCSI_STATUS_TASK_ABORTED", 64)].

(** DRIVER_STATUS_CODES, linux.py:77-92. *)
Definition DRIVER_STATUS_CODES : list (string * Z) :=
  [("SG_ERR_DRIVER_OK", 0); ("SG_ERR_DRIVER_BUSY", 1); ("SG_ERR_DRIVER_SOFT", 2);
   ("SG_ERR_DRIVER_MEDIA", 3); ("SG_ERR_DRIVER_ERROR", 4); ("SG_ERR_DRIVER_INVALID", 5);
   ("SG_ERR_DRIVER_TIMEOUT", 6); ("SG_ERR_DRIVER_HARD", 7); ("SG_ERR_DRIVER_SENSE", 8);
   ("SG_ERR_SUGGEST_RETRY", 16); ("SG_ERR_SUGGEST_ABORT", 32); ("SG_ERR_SUGGEST_REMAP", 48);
   ("SG_ERR_SUGGEST_DIE", 64); ("SG_ERR_SUGGEST_SENSE", 128)].

(** HOST_STATUS_CODES, linux.py:95-108. *)
Definition HOST_STATUS_CODES : list (string * Z) :=
  [("SG_ERR_DID_OK", 0); ("SG_ERR_DID_NO_CONNECT", 1); ("SG_ERR_DID_BUS_BUSY", 2);
   ("SG_ERR_DID_TIME_OUT", 3); ("SG_ERR_DID_BAD_TARGET", 4); ("SG_ERR_DID_ABORT", 5);
   ("SG_ERR_DID_PARITY", 6); ("SG_ERR_DID_ERROR", 7); ("SG_ERR_DID_RESET", 8);
   ("SG_ERR_DID_BAD_INTR", 9); ("SG_ERR_DID_PASSTHROUGH", 10); ("SG_ERR_DID_SOFT_ERROR", 11)].

(** The text of the AsiSCSIError that _handle_raw_response makes, if it makes one:
    linux.py:234-263, the branches as in [linux_handle]. *)
Definition linux_text (response : sg_hdr) : option string :=
  let three what :=
    Some (what ++ prettify_status (status response) SCSI_STATUS_CODES
      ++ "(driver status: " ++ prettify_status (Z.land (driver_status response) 15) DRIVER_STATUS_CODES
      ++ ", host status: " ++ prettify_status (host_status response) HOST_STATUS_CODES ++ ")") in
  if negb (Z.land (status response) SCSI_STATUS_CHECK_CONDITION =? 0)
     || negb (Z.land (driver_status response) SG_ERR_DRIVER_SENSE =? 0) then None
  else if negb (status response =? 0) then
    if host_status response =? 7 then None
    else if host_status response =? SCSI_STATUS_RESERVATION_CONFLICT then None
    else three "SCSI response status is not zero: "
  else if negb (Z.land (driver_status response) 15 =? 0) then
    Some ("SCSI driver response status is not zero: "
      ++ prettify_status (status response) SCSI_STATUS_CODES
      ++ " (host status: " ++ prettify_status (Z.land (driver_status response) 15) DRIVER_STATUS_CODES
      ++ ")")
  else if negb (host_status response =? 0) then three "SCSI host status is not zero: "
  else None.

(** The same for Solaris, solaris.py:213-226. *)
Definition solaris_text (response : uscsi_hdr) : option string :=
  let status_code := Z.land (uscsi_status response) 255 in
  if negb (Z.land status_code SCSI_STATUS_CHECK_CONDITION =? 0) then None
  else if negb (status_code =? 0) then
    Some ("SCSI response status is not zero: 0x" ++ hex02 status_code ++ " (SCSI reason: 0x"
      ++ hex02 (solaris_reason response) ++ ")")
  else if negb (uscsi_rqstatus response =? 0) then
    Some ("SCSI request commmand status is not zero: 0x" ++ hex02 (uscsi_rqstatus response))
  else None.

(** STATUS_VALIDITY_CODES, aix.py:182-185. *)
Definition STATUS_VALIDITY_CODES : list (string * Z) := [("SC_SCSI_ERROR", 1); ("SC_ADAPTER_ERROR", 2)].

(** ADAPTER_STATUS_CODES, aix.py:198-214. *)
Definition ADAPTER_STATUS_CODES : list (string * Z) :=
  [("SCSI_HOST_IO_BUS_ERR", 1); ("SCSI_TRANSPORT_FAULT", 2); ("SCSI_CMD_TIMEOUT", 3);
   ("SCSI_NO_DEVICE_RESPONSE", 4); ("SCSI_ADAPTER_HDW_FAILURE", 5); ("SCSI_ADAPTER_SFW_FAILURE", 6);
   ("SCSI_WW_NAME_CHANGE", 7); ("SCSI_FUSE_OR_TERMINAL_PWR", 8); ("SCSI_TRANSPORT_RESET", 9);
   ("SCSI_TRANSPORT_BUSY", 10); ("SCSI_TRANSPORT_DEAD", 11); ("SCSI_VERIFY_DEVICE", 12);
   ("SCSI_TRANSPORT_MIGRATED", 13); ("SCSI_ERROR_NO_RETRY", 14); ("SCSI_ERROR_DELAY_LOG", 15)].

(** AixAsiSCSIError, aix.py:237-243; [adapter] is the field adapter_status, which [sc_hdr] leaves out. *)
Definition aix_error_text (msg : string) (response : sc_hdr) (adapter : Z) : string :=
  msg ++ ", validity=" ++ prettify_status (status_validity response) STATUS_VALIDITY_CODES
    ++ ", scsi_bus_status=" ++ prettify_status (Z.land (scsi_bus_status response) SCSI_STATUS_MASK) SCSI_STATUS_CODES
    ++ ", adapter_status=" ++ prettify_status adapter ADAPTER_STATUS_CODES.

(** The texts of _handle_raw_response, aix.py:390-401. *)
Definition aix_text (response : sc_hdr) (adapter : Z) : option string :=
  if negb (status_validity response =? 0) then
    if status_validity response =? SC_SCSI_ERROR then
      let scsi_status := Z.land (scsi_bus_status response) SCSI_STATUS_MASK in
      if negb (Z.land scsi_status SCSI_STATUS_CHECK_CONDITION =? 0) then None
      else Some (aix_error_text "SCSI bus response status is not zero" response adapter)
    else if status_validity response =? SC_ADAPTER_ERROR
    then Some (aix_error_text "SCSI adapter response status is not zero" response adapter)
    else Some (aix_error_text "SCSI response status validity unknown" response adapter)
  else None.

(** The text of _os_receive for a packet with this status, win32.py:377-381. *)
Definition win_text (scsi_status : Z) : option string :=
  if scsi_status =? 0 then None
  else if scsi_status =? SCSISTAT_CHECK_CONDITION then None
  else Some ("SCSI response status is not zero: " ++ digits 10 scsi_status).
