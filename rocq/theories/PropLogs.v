(** C106: what is printed of request blocks and of errors of Windows. *)
From Coq Require Import String Ascii ZArith List Bool Lia.
From Verif Require Import Base OsCommon Ctypes ErrorText SpecText TextFacts Logs SpecLogs LogsFacts.
Import ListNotations.
Local Open Scope string_scope.
Local Open Scope list_scope.
Local Open Scope Z_scope.

(** The text of a request block read from memory has all members of the structure in their order, each with its value;
    a null pointer is shown as None. *)
Theorem C106_linux : forall a buf vs, sgio_from_string a buf = Ok vs ->
  exists t, sgio_repr a vs = Ok t /\ starts "SGIO(" t = true /\ named_values "," t = combine sg_io_hdr_members (map value_read vs).
Proof. exact sgio_shown. Qed.
Theorem C106_solaris : forall a buf vs, scsicmd_from_string a buf = Ok vs ->
  exists t, scsicmd_repr a vs = Ok t /\ starts "SCSICMD(" t = true /\ named_values "," t = combine uscsi_cmd_members (map value_read vs).
Proof. exact scsicmd_shown. Qed.
(** On AIX each is on its own line.  Instead of the CDB the text has the address of an object. *)
Theorem C106_aix : forall a object mark buf vs, object_text object -> (forall n, mark n = "" \/ mark n = "L") -> passthru_from_string a buf = Ok vs ->
  starts "sc_passthru(" (passthru_repr a object mark vs) = true /\
  named_values newline (passthru_repr a object mark vs) = combine sc_passthru_members (map value_read vs).
Proof. exact passthru_shown. Qed.
Theorem C106_aix_cdb_refuted : forall a object mark front b b' rest, length front = 21%nat ->
  nth_error sc_passthru_members 21 = Some "scsi_cdb" /\
  passthru_repr a object mark (front ++ CBytes b :: rest) = passthru_repr a object mark (front ++ CBytes b' :: rest).
Proof. intros. split; [reflexivity|apply passthru_hides; assumption]. Qed.

(** The error raised when a function of Windows fails with [code] (as GetLastError of Windows has it): the number in the text
    is the attribute win32_errno, which is the code; but codes from 2^31 on are shown as negative numbers. *)
Theorem C106_windows_code : forall messages str_of call path code, 0 <= code < 2 ^ 32 -> free_of "(" path ->
  let e := raised_error messages str_of call path code in
  integer_after "(win32 error " (error_text e) = Some (win32_errno e) /\ win32_errno e = if code <? 2 ^ 31 then code else code - 2 ^ 32.
Proof. intros. split; [apply error_number; assumption|apply last_error_signed; assumption]. Qed.

(** It tells which function has failed, for which file and with which control code. *)
Theorem C106_windows_call : forall messages str_of call path code,
  let text := error_text (raised_error messages str_of call path code) in
  starts (call_name call) text = true /\
  match call with
  | FDeviceIoControl control_code => integer_after "DeviceIoControl " text = Some control_code
  | FWait result => integer_after "result=" text = Some result
  | _ => True
  end /\
  match call with
  | FWait _ => True
  | _ => exists rest, after "path " text = Some (path ++ " failed (win32 error " ++ rest)%string
  end.
Proof. exact error_call. Qed.

(** win32_message is the text that the system has for the lower 16 bits of the code, without white space around it.  The text
    of the error ends with it. *)
Theorem C106_windows_message : forall messages str_of call path code, 0 <= code < 2 ^ 32 ->
  let e := raised_error messages str_of call path code in
  match messages (code mod 65536) with
  | Some t => (String.length t < 1024)%nat -> free_of zero t -> trimmed t (win32_message e)
  | None => win32_message e = ""
  end /\
  exists front, error_text e = (front ++ ": " ++ str_of (win32_message e) ++ ")")%string.
Proof.
  intros messages str_of call path code C e. split; [exact (error_message messages str_of call path code C)|].
  exists (details_of call path ++ " (win32 error " ++ decimal (win32_errno e))%string. subst e. unfold raised_error, asi_win32_os_error. cbn [error_text win32_errno win32_message].
  rewrite !append_assoc. reflexivity.
Qed.
(** So other codes are shown with the text of another error. *)
Theorem C106_windows_message_refuted : exists messages code t,
  0 <= code < 2 ^ 31 /\ messages code = Some t /\ (String.length t < 1024)%nat /\ free_of zero t /\
  forall str_of call path, ~ trimmed t (win32_message (raised_error messages str_of call path code)).
Proof.
  exists (fun id => if id =? 5 then Some "Access is denied." else Some "Another one."), 65541, "Another one.".
  repeat split; try lia; try (cbn; lia). intros str_of call path ((a & b & E & A & B) & _).
  change (win32_message (raised_error _ str_of call path 65541)) with "Access is denied." in E.
  destruct a as [|c a]; [discriminate E|]. injection E as <- _. discriminate A.
Qed.

(** ** Examples *)

Definition linux_abi : abi := Abi 8 8 8 true.
Example C106_linux_example : exists vs t, sgio_from_string linux_abi ([83; 0; 0; 0; 253; 255; 255; 255; 6; 255] ++ zeros 78) = Ok vs /\
  sgio_repr linux_abi vs = Ok t /\
  t = "SGIO(interface_id=83, dxfer_direction=-3, cmd_len=6, mx_sb_len=255, iovec_count=0, dxfer_len=0, dxferp=None, cmdp=None, sbp=None, timeout=0, flags=0, pack_id=0, usr_ptr=None, status=0, masked_status=0, msg_status=0, sb_len_wr=0, host_status=0, driver_status=0, resid=0, duration=0, info=0)" /\
  firstn 3 (named_values "," t) = [("interface_id", Some 83); ("dxfer_direction", Some (-3)); ("cmd_len", Some 6)].
Proof. eexists _, _. split; [reflexivity|]. split; [reflexivity|]. split; reflexivity. Qed.
Example C106_solaris_example : exists vs, scsicmd_from_string linux_abi (zeros 72) = Ok vs /\
  scsicmd_repr linux_abi vs = Ok "SCSICMD(uscsi_flags=0, uscsi_status=0, uscsi_timeout=0, uscsi_cdb=None, uscsi_bufaddr=None, uscsi_buflen=0, uscsi_resid=0, uscsi_cdblen=0, uscsi_rqlen=0, uscsi_rqstatus=0, uscsi_rqresid=0, uscsi_rqbuf=None, uscsi_path_instance=0)".
Proof. eexists. split; reflexivity. Qed.
Example C106_aix_example : object_text "<infi.asi.aix.c_ubyte_Array_16 object at 0x7f12a0>" /\
  exists vs, passthru_from_string linux_abi (zeros 400) = Ok vs /\
  nth_error (named_values newline (passthru_repr linux_abi "<infi.asi.aix.c_ubyte_Array_16 object at 0x7f12a0>" (fun _ => "L") vs)) 21 = Some ("scsi_cdb", None).
Proof. split; [eexists; split; reflexivity|]. eexists. split; reflexivity. Qed.
Definition example_messages (id : Z) : option string :=
  if id =? 5 then Some ("Access is denied." ++ String (ascii_of_nat 13) (String (ascii_of_nat 10) ""))%string else None.
Example C106_windows_example :
  raised_error example_messages (fun t => t) (FDeviceIoControl 315412) "\\.\PhysicalDrive0" 5 =
    Win32Error "DeviceIoControl 315412 for path \\.\PhysicalDrive0 failed (win32 error 5: Access is denied.)" 5 "Access is denied." /\
  win32_errno (raised_error example_messages (fun t => t) FCreateFile "\\.\PhysicalDrive0" (2 ^ 32 - 1)) = -1 /\ free_of "(" "\\.\PhysicalDrive0".
Proof. split; [|split; reflexivity]. vm_compute. reflexivity. Qed.

Print Assumptions C106_linux.
Print Assumptions C106_solaris.
Print Assumptions C106_aix.
Print Assumptions C106_aix_cdb_refuted.
Print Assumptions C106_windows_code.
Print Assumptions C106_windows_call.
Print Assumptions C106_windows_message.
Print Assumptions C106_windows_message_refuted.
