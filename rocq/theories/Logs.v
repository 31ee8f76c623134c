(** What the library prints of request blocks (__repr__) and of errors of Windows (AsiWin32OSError). *)
From Coq Require Import String Ascii ZArith List Bool.
From Verif Require Import Base OsCommon Ctypes ErrorText.
Import ListNotations.
Local Open Scope string_scope.
Local Open Scope list_scope.
Local Open Scope Z_scope.

(** str() of an integer: "%d" at win32.py:27, "{}" at linux.py:171-176. *)
Definition decimal (z : Z) : string := if z <? 0 then ("-" ++ digits 10 (- z))%string else digits 10 z.

(** The fields of type c_void_p: linux.py:126-128 and 132, solaris.py:107-108 and 115, aix.py:267-268 and 273.  ctypes
    reads a null pointer as None. *)
Definition pointer_fields : list string :=
  ["dxferp"; "cmdp"; "sbp"; "usr_ptr"; "uscsi_cdb"; "uscsi_bufaddr"; "uscsi_rqbuf"; "buffer"; "autosense_buffer_ptr"; "variable_cdb_ptr"].

(** The value of an attribute as text; [mark] is what follows a number ("L" after a long in Python 2 with !r), [object] the
    text of an array object, which does not tell its content. [linux.py:171-176, solaris.py:145-150, aix.py:306] *)
Definition field_text (object : string) (mark : string) (name : string) (v : cvalue) : string :=
  match v with
  | CNum z => if (z =? 0) && existsb (String.eqb name) pointer_fields then "None" else (decimal z ++ mark)%string
  | CBytes _ => object
  end.

(** getattr(self, name), linux.py:171-176, aix.py:306. *)
Fixpoint attribute (name : string) (fields : list (string * cvalue)) : result cvalue :=
  match fields with
  | [] => Err EAttribute
  | (n, v) :: r => if String.eqb name n then Ok v else attribute name r
  end.

(** A format string with fields self.name: [text before, name] for each, and the rest. [linux.py:171-176, solaris.py:145-150] *)
Fixpoint format_self (pieces : list (string * string)) (rest : string) (self : list (string * cvalue)) : result string :=
  match pieces with
  | [] => Ok rest
  | (literal, name) :: r =>
    do v <- attribute name self;
    do t <- format_self r rest self;
    Ok (literal ++ field_text "" "" name v ++ t)%string
  end.

(** SGIO.__repr__, linux.py:170-176. *)
Definition sgio_repr (a : abi) (values : list cvalue) : result string :=
  format_self
    [("SGIO(interface_id=", "interface_id"); (", dxfer_direction=", "dxfer_direction"); (", cmd_len=", "cmd_len");
     (", mx_sb_len=", "mx_sb_len"); (", iovec_count=", "iovec_count"); (", dxfer_len=", "dxfer_len"); (", dxferp=", "dxferp");
     (", cmdp=", "cmdp"); (", sbp=", "sbp"); (", timeout=", "timeout"); (", flags=", "flags"); (", pack_id=", "pack_id");
     (", usr_ptr=", "usr_ptr"); (", status=", "status"); (", masked_status=", "masked_status"); (", msg_status=", "msg_status");
     (", sb_len_wr=", "sb_len_wr"); (", host_status=", "host_status"); (", driver_status=", "driver_status");
     (", resid=", "resid"); (", duration=", "duration"); (", info=", "info")] ")"
    (combine (map fst (sgio_fields a)) values).

(** SCSICMD.__repr__, solaris.py:144-150. *)
Definition scsicmd_repr (a : abi) (values : list cvalue) : result string :=
  format_self
    [("SCSICMD(uscsi_flags=", "uscsi_flags"); (", uscsi_status=", "uscsi_status"); (", uscsi_timeout=", "uscsi_timeout");
     (", uscsi_cdb=", "uscsi_cdb"); (", uscsi_bufaddr=", "uscsi_bufaddr"); (", uscsi_buflen=", "uscsi_buflen");
     (", uscsi_resid=", "uscsi_resid"); (", uscsi_cdblen=", "uscsi_cdblen"); (", uscsi_rqlen=", "uscsi_rqlen");
     (", uscsi_rqstatus=", "uscsi_rqstatus"); (", uscsi_rqresid=", "uscsi_rqresid"); (", uscsi_rqbuf=", "uscsi_rqbuf");
     (", uscsi_path_instance=", "uscsi_path_instance")] ")"
    (combine (map fst (scsicmd_fields a)) values).

(** sep.join(texts), aix.py:306. *)
Fixpoint join (sep : string) (texts : list string) : string :=
  match texts with
  | [] => ""
  | [t] => t
  | t :: r => (t ++ sep ++ join sep r)%string
  end.

(** Newline and tab, aix.py:306. *)
Definition newline_tab : string := String (ascii_of_nat 10) (String (ascii_of_nat 9) "").
(** sc_passthru.__repr__, aix.py:305-307; [mark name] follows a number of this field. *)
Definition passthru_repr (a : abi) (object : string) (mark : string -> string) (values : list cvalue) : string :=
  ("sc_passthru(" ++ join newline_tab
     (map (fun p => fst p ++ "=" ++ field_text object (mark (fst p)) (fst p) (snd p)) (combine (map fst (passthru_fields a)) values)) ++ ")")%string.

(** AsiWin32OSError: its text and its two attributes, win32.py:31-33. *)
Record win32_error : Type := Win32Error { error_text : string; win32_errno : Z; win32_message : string }.

(** GetLastError(): a DWORD that ctypes takes for an int, since no restype is set. [win32.py:36-41] *)
Definition get_last_error (last_error : Z) : Z := c_int last_error.

(** buf.value after FormatMessageA into 1024 zeros: the text up to the first NUL; nothing if there is no message with this
    number, or if it does not fit. [win32.py:22-24] *)
Fixpoint up_to_nul (t : string) : string :=
  match t with
  | String c r => if Ascii.eqb c zero then "" else String c (up_to_nul r)
  | "" => ""
  end.
(** As above: win32.py:22-24. *)
Definition format_message (messages : Z -> option string) (id : Z) : string :=
  match messages id with
  | Some t => if (String.length t <? 1024)%nat then up_to_nul t else ""
  | None => ""
  end.

(** str.strip() with the white space of ASCII. [win32.py:24] *)
Definition white (c : ascii) : bool := existsb (Nat.eqb (nat_of_ascii c)) [32; 9; 10; 11; 12; 13]%nat.
(** As above: win32.py:24. *)
Fixpoint lstrip (t : string) : string :=
  match t with
  | String c r => if white c then lstrip r else t
  | "" => ""
  end.
(** As above: win32.py:24. *)
Fixpoint rstrip (t : string) : string :=
  match t with
  | String c r => let r' := rstrip r in match r' with "" => if white c then "" else String c "" | _ => String c r' end
  | "" => ""
  end.
(** As above: win32.py:24. *)
Definition strip (t : string) : string := rstrip (lstrip t).

(** AsiWin32OSError.__init__, win32.py:21-33; [str_of] is what %s makes of the text, which is bytes: itself in Python 2, its
    repr in Python 3. *)
Definition asi_win32_os_error (messages : Z -> option string) (str_of : string -> string) (errno : Z) (details : option string) : win32_error :=
  let error_string := strip (format_message messages (Z.land errno 65535)) in
  let message :=
    match details with
    | Some d => d ++ " (win32 error " ++ decimal errno ++ ": " ++ str_of error_string ++ ")"
    | None => "Win32 error " ++ decimal errno ++ ": " ++ str_of error_string
    end%string in
  Win32Error message errno error_string.

(** The places where it is raised: win32.py:120, 126, 133 and 171, 178. *)
Inductive failed_call : Type := FCreateFile | FCloseHandle | FDeviceIoControl (control_code : Z) | FWait (result : Z).
(** As above: win32.py:120, 126, 133, 171, 178. *)
Definition details_of (call : failed_call) (path : string) : string :=
  match call with
  | FCreateFile => "CreateFile for path " ++ path ++ " failed"
  | FCloseHandle => "CloseHandle for path " ++ path ++ " failed"
  | FDeviceIoControl code => "DeviceIoControl " ++ decimal code ++ " for path " ++ path ++ " failed"
  | FWait result => "WaitForMultipleObjects failed. result=" ++ decimal result
  end%string.
(** As above: win32.py:120, 126, 133, 171, 178. *)
Definition raised_error (messages : Z -> option string) (str_of : string -> string) (call : failed_call) (path : string) (last_error : Z) : win32_error :=
  asi_win32_os_error messages str_of (get_last_error last_error) (Some (details_of call path)).
