(** What a reader of a log finds in the texts of request blocks and of errors of Windows. *)
From Coq Require Import String Ascii ZArith List Bool.
From Verif Require Import Ctypes SpecText Logs.
Import ListNotations.
Local Open Scope string_scope.
Local Open Scope list_scope.
Local Open Scope Z_scope.

(** The parts of a text between the characters [c]. *)
Fixpoint split_at (c : ascii) (t : string) : list string :=
  match t with
  | "" => [""]
  | String a r =>
    if Ascii.eqb a c then "" :: split_at c r
    else match split_at c r with x :: l => String a x :: l | [] => [String a ""] end
  end.
(** Without blanks and tabs in front. *)
Fixpoint unindented (t : string) : string :=
  match t with
  | String a r => if Ascii.eqb a " " || Ascii.eqb a (ascii_of_nat 9) then unindented r else t
  | "" => ""
  end.
(** The text before the first [c]. *)
Fixpoint before (c : ascii) (t : string) : string :=
  match t with
  | String a r => if Ascii.eqb a c then "" else String a (before c r)
  | "" => ""
  end.

(** The integer at the start of a text, if there is one; None is a null pointer. *)
Definition integer (t : string) : option Z :=
  if starts "None" t then Some 0
  else match t with
       | String c r =>
         if Ascii.eqb c "-" then Some (- number_from 10 0 r)
         else match digit_value c with Some d => if d <? 10 then Some (number_from 10 0 t) else None | None => None end
       | "" => None
       end.
Definition integer_after (label t : string) : option Z := match after label t with Some r => integer r | None => None end.

(** [Class(name=value SEP name=value ...)]: the names with their values. *)
Definition named_value (t : string) : string * option Z := (before "=" (unindented t), integer_after "=" t).
Definition named_values (sep : ascii) (t : string) : list (string * option Z) :=
  match after "(" t with Some b => map named_value (split_at sep b) | None => [] end.
Definition newline : ascii := ascii_of_nat 10.

(** The members of struct sg_io_hdr (Linux), struct uscsi_cmd (Solaris), struct sc_passthru (AIX). *)
Definition sg_io_hdr_members : list string :=
  ["interface_id"; "dxfer_direction"; "cmd_len"; "mx_sb_len"; "iovec_count"; "dxfer_len"; "dxferp"; "cmdp"; "sbp"; "timeout"; "flags"; "pack_id";
   "usr_ptr"; "status"; "masked_status"; "msg_status"; "sb_len_wr"; "host_status"; "driver_status"; "resid"; "duration"; "info"].
Definition uscsi_cmd_members : list string :=
  ["uscsi_flags"; "uscsi_status"; "uscsi_timeout"; "uscsi_cdb"; "uscsi_bufaddr"; "uscsi_buflen"; "uscsi_resid"; "uscsi_cdblen"; "uscsi_rqlen";
   "uscsi_rqstatus"; "uscsi_rqresid"; "uscsi_rqbuf"; "uscsi_path_instance"].
Definition sc_passthru_members : list string :=
  ["version"; "status_validity"; "scsi_bus_status"; "adap_status_type"; "adapter_status"; "adap_set_flags"; "add_device_status"; "adap_q_status";
   "q_tag_msg"; "flags"; "devflags"; "q_flags"; "command_length"; "einval_arg"; "autosense_length"; "timeout_value"; "data_length"; "scsi_id";
   "lun_id"; "buffer"; "autosense_buffer_ptr"; "scsi_cdb"; "world_wide_name"; "node_name"; "variable_cdb_length"; "variable_cdb_ptr"; "residual"].

(** A text without a character. *)
Definition free_of (c : ascii) (t : string) : Prop := before c t = t.
(** The text of an object without own __repr__, such as [<infi.asi.aix.c_ubyte_Array_16 object at 0x7f...>]. *)
Definition object_text (t : string) : Prop := exists r, t = String "<" r /\ free_of newline r.

(** White space, and a text without the white space around it. *)
Definition blank (c : ascii) : bool := existsb (Nat.eqb (nat_of_ascii c)) [9; 10; 11; 12; 13; 32]%nat.
Fixpoint blanks (t : string) : bool := match t with String c r => blank c && blanks r | "" => true end.
Definition trimmed (t s : string) : Prop :=
  (exists a b, t = (a ++ s ++ b)%string /\ blanks a = true /\ blanks b = true) /\
  (forall c r, s = String c r -> blank c = false) /\ (forall c r, s = (r ++ String c "")%string -> blank c = false).

(** A number in a member, or something else. *)
Definition value_read (v : cvalue) : option Z := match v with CNum z => Some z | CBytes _ => None end.

(** The function that failed. *)
Definition call_name (call : failed_call) : string :=
  match call with FCreateFile => "CreateFile " | FCloseHandle => "CloseHandle " | FDeviceIoControl _ => "DeviceIoControl " | FWait _ => "WaitForMultipleObjects " end.
