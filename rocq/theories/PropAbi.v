(** C80, C81: the request structures in memory. *)
From Coq Require Import String ZArith List Bool Lia.
From Verif Require Import Base OsCommon OsLinux OsSolaris OsAix OsWin32 Ctypes SpecAbi CtypesFacts AbiFacts.
Import ListNotations.
Local Open Scope string_scope.
Local Open Scope list_scope.
Local Open Scope Z_scope.

(** C80: the fields of SGIO lie where struct sg_io_hdr has its members, for both pointer sizes and
    both byte orders, and the structure has its size. *)
Theorem C80_sg_io_hdr : forall little,
  places None (sgio_fields (lp64 little)) = sg_io_hdr_64 /\ sizeof None (map snd (sgio_fields (lp64 little))) = 88%nat /\
  places None (sgio_fields (ilp32 little)) = sg_io_hdr_32 /\ sizeof None (map snd (sgio_fields (ilp32 little))) = 64%nat.
Proof. intros. repeat split. Qed.

(** The same for struct uscsi_cmd of Solaris. *)
Theorem C80_uscsi_cmd : forall little,
  places None (scsicmd_fields (lp64 little)) = uscsi_cmd_64 /\
  sizeof None (map snd (scsicmd_fields (lp64 little))) = 64%nat /\
  places None (scsicmd_fields (ilp32 little)) = uscsi_cmd_32 /\
  sizeof None (map snd (scsicmd_fields (ilp32 little))) = 36%nat.
Proof. intros. repeat split. Qed.

(** The same for struct sc_passthru of AIX. *)
Theorem C80_sc_passthru : forall little,
  places None (passthru_fields (lp64 little)) = sc_passthru_64 /\
  sizeof None (map snd (passthru_fields (lp64 little))) = 168%nat /\
  places None (passthru_fields (ilp32 little)) = sc_passthru_32 /\
  sizeof None (map snd (passthru_fields (ilp32 little))) = 152%nat.
Proof. intros. repeat split. Qed.

(** The same for SCSI_PASS_THROUGH_DIRECT of Windows, which the packed structure with its paddings
    imitates: every member lies in its place, and the sense buffer right after the structure. *)
Theorem C80_pass_through : forall a ps size, windows_abi a ps size ->
  (forall p, In p ps -> member (place_name p) (places (Some 1%nat) (spt_fields a)) = Some p) /\
  member "sense_buffer" (places (Some 1%nat) (spt_fields a)) = Some (Place "sense_buffer" (Z.to_nat size) 255 Raw) /\
  sizeof (Some 1%nat) (map snd (spt_fields a)) = (Z.to_nat size + 255)%nat.
Proof. exact pass_through_places. Qed.

(** The same for OVERLAPPED, which carries the event. *)
Theorem C80_overlapped : forall a ps event,
  (a = llp64 /\ ps = overlapped_64) \/ (a = win32 /\ ps = overlapped_32) -> 0 <= event < 256 ^ Z.of_nat (ptr_bytes a) ->
  places None (overlapped_fields a) = ps /\
  look true ps "hEvent" (overlapped_raw a event) = Some (CNum event) /\
  look true ps "Internal" (overlapped_raw a event) = Some (CNum 0) /\
  look true ps "Offset" (overlapped_raw a event) = Some (CNum 0) /\
  look true ps "OffsetHigh" (overlapped_raw a event) = Some (CNum 0).
Proof. exact overlapped_event. Qed.

(** The control codes are those that the headers compute. *)
Theorem C80_control_codes :
  IOCTL_SCSI_PASS_THROUGH_DIRECT = 4 * 65536 + (1 + 2) * 16384 + 1029 * 4 + 0 /\ USCSICMD = 4 * 256 + 201 /\ SG_IO = 8837.
Proof. repeat split. Qed.

(** C81: what the sg driver finds in the structure of a request on Linux. *)
Theorem C81_linux_request : forall little a ps loc packet c timeout h h' r,
  linux_abi little a ps -> addresses a loc -> sensible c -> 0 <= timeout < 4294967296 ->
  -2147483648 <= packet < 2147483648 -> sgio_create packet c timeout h = (h', r) ->
  let m := sgio_raw a loc (hdr r) in
  let field := fun name => look little ps name m in
  let buffer := fun name content => points little ps m name loc h' content in
  (forall name, In name sg_io_hdr_unset -> field name = Some (CNum 0)) /\
  field "interface_id" = Some (CNum 83) /\ field "pack_id" = Some (CNum packet) /\
  field "timeout" = Some (CNum timeout) /\ field "iovec_count" = Some (CNum 0) /\ field "flags" = Some (CNum 1) /\
  field "cmd_len" = Some (CNum (zlen (command_of c))) /\ buffer "cmdp" (command_of c) /\
  field "mx_sb_len" = Some (CNum 255) /\ buffer "sbp" (zeros 255) /\
  match c with
  | ReadCmd _ n =>
    if 0 <? n then
      field "dxfer_direction" = Some (CNum (-3)) /\ field "dxfer_len" = Some (CNum n) /\
      buffer "dxferp" (zeros (Z.to_nat n))
    else
      field "dxfer_direction" = Some (CNum (-1)) /\ field "dxfer_len" = Some (CNum 0) /\
      field "dxferp" = Some (CNum 0)
  | WriteCmd _ data =>
    field "dxfer_direction" = Some (CNum (-2)) /\ field "dxfer_len" = Some (CNum (zlen data)) /\ buffer "dxferp" data
  end.
Proof. exact linux_request. Qed.

(** On Solaris, in 64-bit programs. *)
Theorem C81_solaris_request : forall little loc c timeout h h' r,
  addresses (lp64 little) loc -> sensible c -> -32768 <= timeout < 32768 -> scsicmd_create c timeout h = (h', r) ->
  let m := scsicmd_raw (lp64 little) loc (u_hdr r) in
  let field := fun name => look little uscsi_cmd_64 name m in
  let buffer := fun name content => points little uscsi_cmd_64 m name loc h' content in
  (forall name, In name uscsi_cmd_unset -> field name = Some (CNum 0)) /\
  field "uscsi_timeout" = Some (CNum timeout) /\ field "uscsi_cdblen" = Some (CNum (zlen (command_of c))) /\
  buffer "uscsi_cdb" (command_of c) /\ field "uscsi_rqlen" = Some (CNum 255) /\ buffer "uscsi_rqbuf" (zeros 255) /\
  match c with
  | ReadCmd _ n =>
    if 0 <? n then
      field "uscsi_flags" = Some (CNum (8 + 2 + 65536 + 2097152)) /\ field "uscsi_buflen" = Some (CNum n) /\
      buffer "uscsi_bufaddr" (zeros (Z.to_nat n))
    else
      field "uscsi_flags" = Some (CNum (2 + 65536 + 2097152)) /\ field "uscsi_buflen" = Some (CNum 0) /\
      field "uscsi_bufaddr" = Some (CNum 0)
  | WriteCmd _ data =>
    field "uscsi_flags" = Some (CNum (2 + 65536 + 2097152)) /\ field "uscsi_buflen" = Some (CNum (zlen data)) /\
    buffer "uscsi_bufaddr" data
  end.
Proof. exact solaris_request. Qed.

(** On AIX; the command descriptor block lies in the structure, followed by zeros. *)
Theorem C81_aix_request : forall little a ps loc c timeout h h' q d,
  aix_abi little a ps -> addresses a loc -> sensible c -> zlen (command_of c) <= 64 -> 0 <= timeout < 4294967296 ->
  passthru_create c timeout h = (h', q, d) ->
  let m := passthru_raw a loc q in
  let field := fun name => look little ps name m in
  let buffer := fun name content => points little ps m name loc h' content in
  (forall name, In name sc_passthru_unset -> field name = Some (CNum 0)) /\
  field "version" = Some (CNum 2) /\ field "devflags" = Some (CNum 1) /\
  field "command_length" = Some (CNum (zlen (command_of c))) /\
  field "scsi_cdb" = Some (CBytes (command_of c ++ zeros (64 - length (command_of c)))) /\
  field "variable_cdb_length" = Some (CNum 0) /\
  field "timeout_value" = Some (CNum timeout) /\
  field "autosense_length" = Some (CNum 255) /\ buffer "autosense_buffer_ptr" (zeros 255) /\
  match c with
  | ReadCmd _ n =>
    if 0 <? n then
      field "flags" = Some (CNum 1) /\ field "data_length" = Some (CNum n) /\ buffer "buffer" (zeros (Z.to_nat n))
    else
      field "flags" = Some (CNum 0) /\ field "data_length" = Some (CNum 0) /\ field "buffer" = Some (CNum 0)
  | WriteCmd _ data =>
    field "flags" = Some (CNum 0) /\ field "data_length" = Some (CNum (zlen data)) /\ buffer "buffer" data
  end.
Proof. exact aix_request. Qed.

(** On Windows; SenseInfoOffset leads to the 255 bytes of the sense buffer. *)
Theorem C81_windows_request : forall a ps size loc c h h' q d,
  windows_abi a ps size -> addresses a loc -> sensible c -> spt_create c h = Ok (h', q, d) ->
  let m := spt_raw a loc q in
  let field := fun name => look true ps name m in
  let buffer := fun name content => points true ps m name loc h' content in
  (forall name, In name pass_through_unset -> field name = Some (CNum 0)) /\
  zlen (command_of c) <= 16 /\ zlen m = size + 255 /\
  field "Length" = Some (CNum size) /\ field "PathId" = Some (CNum 0) /\ field "TargetId" = Some (CNum 0) /\
  field "Lun" = Some (CNum 0) /\ field "TimeOutValue" = Some (CNum 10) /\
  field "CdbLength" = Some (CNum (zlen (command_of c))) /\
  field "Cdb" = Some (CBytes (command_of c ++ zeros (16 - length (command_of c)))) /\
  field "SenseInfoLength" = Some (CNum 255) /\
  (exists offset, field "SenseInfoOffset" = Some (CNum offset) /\ skipn (Z.to_nat offset) m = spt_sense q) /\
  match c with
  | ReadCmd _ n =>
    if 0 <? n then
      field "DataIn" = Some (CNum 1) /\ field "DataTransferLength" = Some (CNum n) /\
      buffer "DataBuffer" (zeros (Z.to_nat n))
    else
      field "DataIn" = Some (CNum 2) /\ field "DataTransferLength" = Some (CNum 0) /\
      field "DataBuffer" = Some (CNum 0)
  | WriteCmd _ data =>
    if 0 <? zlen data then
      field "DataIn" = Some (CNum 0) /\ field "DataTransferLength" = Some (CNum (zlen data)) /\ buffer "DataBuffer" data
    else
      field "DataIn" = Some (CNum 2) /\ field "DataTransferLength" = Some (CNum 0) /\ field "DataBuffer" = Some (CNum 0)
  end.
Proof. exact windows_request. Qed.

(** Whatever a driver has written, the object that from_string makes shows at every attribute what is
    found at the member of that name; fewer bytes than the structure has raise ValueError. *)
Theorem C81_linux_answer : forall little a ps b, linux_abi little a ps -> bytes_ok b ->
  (zlen b < (if (ptr_bytes a =? 8)%nat then 88 else 64) -> sgio_from_string a b = Err EValue) /\
  ((if (ptr_bytes a =? 8)%nat then 88 else 64) <= zlen b ->
   exists vs, sgio_from_string a b = Ok vs /\ forall name, attribute name (sgio_fields a) vs = look little ps name b).
Proof. exact linux_answer. Qed.

Theorem C81_aix_answer : forall little a ps b, aix_abi little a ps -> bytes_ok b ->
  (zlen b < (if (ptr_bytes a =? 8)%nat then 168 else 152) -> passthru_from_string a b = Err EValue) /\
  ((if (ptr_bytes a =? 8)%nat then 168 else 152) <= zlen b ->
   exists vs, passthru_from_string a b = Ok vs /\ forall name, attribute name (passthru_fields a) vs = look little ps name b).
Proof. exact aix_answer. Qed.

(** On Solaris the two bytes uscsi_status and uscsi_reason, whose order depends on the machine, are
    read as one number: its low byte is the status on every machine, its next byte the reason; the
    expression the executer uses for the reason is always 0. *)
Theorem C81_solaris_answer : forall (little : bool) b, bytes_ok b ->
  (zlen b < 64 -> scsicmd_from_string (lp64 little) b = Err EValue) /\
  (64 <= zlen b ->
   exists vs z, scsicmd_from_string (lp64 little) b = Ok vs /\
     (forall name, attribute name (scsicmd_fields (lp64 little)) vs = look little uscsi_cmd_64 name b) /\
     attribute "uscsi_status" (scsicmd_fields (lp64 little)) vs = Some (CNum z) /\
     Z.land z 255 = nth (if little then 4 else 5) b 0 /\
     Z.land (Z.shiftr z 8) 255 = nth (if little then 5 else 4) b 0 /\
     Z.land (Z.shiftl z 8) 255 = 0).
Proof. exact solaris_answer. Qed.

(** Cases: a READ(10) of one block of 512 bytes in a 64-bit program on a little-endian machine, buffers
    at the addresses 4096, 8192, ...: the bytes of the structure as sg.h lays them out. *)
Example C81_linux_case :
  let loc := fun x => 4096 * (Z.of_nat x + 1) in
  let cdb := [40; 0; 0; 0; 0; 7; 0; 0; 1; 0] in
  let r := snd (sgio_create 3 (ReadCmd cdb 512) 30000 []) in
  linux_abi true (lp64 true) sg_io_hdr_64 /\ sensible (ReadCmd cdb 512) /\
  sgio_raw (lp64 true) loc (hdr r) =
    [83; 0; 0; 0;  253; 255; 255; 255;  10;  255;  0; 0;  0; 2; 0; 0;
     0; 48; 0; 0; 0; 0; 0; 0;  0; 32; 0; 0; 0; 0; 0; 0;  0; 16; 0; 0; 0; 0; 0; 0;
     48; 117; 0; 0;  1; 0; 0; 0;  3; 0; 0; 0] ++ zeros 36.
Proof.
  split; [left; auto|]. split; [|reflexivity]. cbn. split; [|lia].
  repeat (apply Forall_cons; [unfold byte_ok; lia|]). apply Forall_nil.
Qed.

Example C81_addresses_case : addresses (lp64 true) (fun x => 4096 * ((Z.of_nat x + 1) mod 4096)) /\
  addresses win32 (fun x => 4096 * ((Z.of_nat x + 1) mod 4096)).
Proof. split; intro x; cbn [ptr_bytes lp64 win32]; pose proof (Z.mod_pos_bound (Z.of_nat x + 1) 4096); lia. Qed.

(** On a big-endian machine the same request begins with the other ends of the numbers. *)
Example C81_big_endian_case :
  firstn 16 (sgio_raw (lp64 false) (fun x => 4096) (hdr (snd (sgio_create 3 (ReadCmd [40; 0; 0; 0; 0; 7; 0; 0; 1; 0] 512) 30000 [])))) =
    [0; 0; 0; 83;  255; 255; 255; 253;  10;  255;  0; 0;  0; 0; 2; 0].
Proof. reflexivity. Qed.

(** Without room the numbers wrap: a command descriptor block of 256 bytes is announced as empty, and a
    read of four gigabytes as a read of nothing. *)
Example C81_sensible_needed_refuted :
  look true sg_io_hdr_64 "cmd_len" (sgio_raw (lp64 true) (fun _ => 4096) (hdr (snd (sgio_create 3 (WriteCmd (zeros 256) []) 30000 []))))
    = Some (CNum 0) /\
  dxfer_len (SgHdr 83 (-3) 10 255 (c_uint 4294967296) None None None 0 1 0 0 0 0 0) = 0.
Proof. split; reflexivity. Qed.

(** A completed uscsi_cmd with status CHECK CONDITION (2) and reason 9, in both byte orders. *)
Example C81_solaris_case :
  let le := [10; 0; 33; 0; 2; 9] ++ zeros 58 in
  let be := [0; 33; 0; 10; 9; 2] ++ zeros 58 in
  (exists vs, scsicmd_from_string (lp64 true) le = Ok vs /\
     attribute "uscsi_status" (scsicmd_fields (lp64 true)) vs = Some (CNum 2306)) /\
  (exists vs, scsicmd_from_string (lp64 false) be = Ok vs /\
     attribute "uscsi_status" (scsicmd_fields (lp64 false)) vs = Some (CNum 2306)) /\
  Z.land 2306 255 = 2.
Proof. split; [|split; [|reflexivity]]; eexists; split; reflexivity. Qed.

Example C81_aix_case :
  aix_abi false (lp64 false) sc_passthru_64 /\
  firstn 80 (passthru_raw (lp64 false) (fun x => 4096 * (Z.of_nat x + 1)) (snd (fst (passthru_create (WriteCmd [42; 0; 0; 0; 0; 7; 0; 0; 1; 0] [1; 2; 3]) 30 [])))) =
    [0; 2;  0;  0;  0;  0;  0;  0;  0;  0;  0;  1;  0;  0;  0; 10;  0; 0;  0; 255;  0; 0; 0; 30;  0; 0; 0; 0; 0; 0; 0; 3]
    ++ zeros 16 ++ [0; 0; 0; 0; 0; 0; 48; 0;  0; 0; 0; 0; 0; 0; 16; 0]
    ++ [42; 0; 0; 0; 0; 7; 0; 0; 1; 0] ++ zeros 6.
Proof. split; [left; auto|reflexivity]. Qed.

Example C81_windows_case :
  windows_abi llp64 pass_through_64 56 /\
  exists h q d, spt_create (ReadCmd [18; 0; 0; 0; 96; 0] 96) [] = Ok (h, q, d) /\
  spt_raw llp64 (fun x => 4096) q =
    [56; 0;  0;  0;  0;  0;  6;  255;  1;  0; 0; 0;  96; 0; 0; 0;  10; 0; 0; 0;  0; 0; 0; 0;
     0; 16; 0; 0; 0; 0; 0; 0;  56; 0; 0; 0;  18; 0; 0; 0; 96; 0] ++ zeros 10 ++ zeros 4 ++ zeros 255.
Proof. split; [left; auto|]. do 3 eexists. split; [reflexivity|]. reflexivity. Qed.

Example C80_overlapped_case : 0 <= 1234567 < 256 ^ Z.of_nat (ptr_bytes llp64) /\
  overlapped_raw llp64 1234567 = zeros 24 ++ [135; 214; 18; 0; 0; 0; 0; 0; 0].
Proof. split; [cbn; lia|reflexivity]. Qed.

Print Assumptions C80_sg_io_hdr.
Print Assumptions C80_uscsi_cmd.
Print Assumptions C80_sc_passthru.
Print Assumptions C80_pass_through.
Print Assumptions C80_overlapped.
Print Assumptions C80_control_codes.
Print Assumptions C81_linux_request.
Print Assumptions C81_solaris_request.
Print Assumptions C81_aix_request.
Print Assumptions C81_windows_request.
Print Assumptions C81_linux_answer.
Print Assumptions C81_aix_answer.
Print Assumptions C81_solaris_answer.
