(** Solaris: SCSICMD and SolarisCommandExecuter, src/infi/asi/solaris.py. *)
From Coq Require Import ZArith List Bool.
From Verif Require Import Base Gen Executer OsCommon.
Import ListNotations.
Open Scope Z_scope.

(** solaris.py:75-100 and 100. *)
Definition USCSI_DIAGNOSE : Z := 2.
(** As above: solaris.py:75-100. *)
Definition USCSI_READ : Z := 8.
(** As above: solaris.py:75-100. *)
Definition USCSI_WRITE : Z := 0.
(** As above: solaris.py:75-100. *)
Definition USCSI_RQENABLE : Z := 65536.
(** As above: solaris.py:75-100. *)
Definition USCSI_REASON : Z := 2097152.
(** As above: solaris.py:75-100. *)
Definition USCSI_DEFAULT_FLAGS : Z := Z.lor (Z.lor USCSI_REASON USCSI_DIAGNOSE) USCSI_RQENABLE.

(** The ctypes structure SCSICMD, solaris.py:102-117.  Left out: uscsi_resid,
    uscsi_rqresid and uscsi_path_instance, which the code neither sets nor uses. *)
Record uscsi_hdr : Type := UscsiHdr {
  uscsi_flags : Z;
  uscsi_status : Z;
  uscsi_timeout : Z;
  uscsi_cdb : option addr;
  uscsi_bufaddr : option addr;
  uscsi_buflen : Z;
  uscsi_cdblen : Z;
  uscsi_rqlen : Z;
  uscsi_rqstatus : Z;
  uscsi_rqbuf : option addr
}.

(** An SCSICMD object: the structure and the Python attribute data_buffer (132-139).
    [solaris.py:102-139] *)
Record scsicmd : Type := Scsicmd {
  u_hdr : uscsi_hdr;
  u_data_buffer : option addr
}.

(** SCSICMD.create, solaris.py:152-173, with init_sense_buffer (122-125),
    init_command_buffer (127-130) and set_data_buffer (132-139) inlined.  The packet id
    is not used. *)
Definition scsicmd_create (c : scsi_command) (timeout : Z) (h : heap) : heap * scsicmd :=
  let (h1, sense) := alloc h (zeros SENSE_SIZE) in
  let (h2, cmd) := alloc h1 (command_of c) in
  let make dir len p :=
    UscsiHdr (c_int (Z.lor dir USCSI_DEFAULT_FLAGS)) 0 (c_short timeout) (Some cmd) p
      (c_ulonglong len) (c_ubyte (zlen (command_of c))) (c_ubyte (Z.of_nat SENSE_SIZE)) 0 (Some sense) in
  match c with
  | ReadCmd _ n =>
    if 0 <? n then
      let (h3, buf) := alloc h2 (zeros (Z.to_nat n)) in
      (h3, Scsicmd (make USCSI_READ n (Some buf)) (Some buf))
    else (h2, Scsicmd (make USCSI_WRITE 0 None) None)
  | WriteCmd _ data =>
    let (h3, buf) := alloc h2 data in
    (h3, Scsicmd (make USCSI_WRITE (zlen data) (Some buf)) (Some buf))
  end.

(** ioctl(fd, USCSICMD, block): memory, driver state and block afterwards, and the error
    number if it failed. [solaris.py:203] *)
Definition uscsi_driver (D : Type) : Type := uscsi_hdr -> heap -> D -> heap * D * uscsi_hdr * option Z.

(** Memory, driver state and the attribute [buffer] (a copy of the block). [solaris.py:188-204] *)
Record solaris_world (D : Type) : Type := SolarisWorld {
  s_heap : heap;
  s_dev : D;
  s_buffer : option uscsi_hdr
}.
Arguments SolarisWorld {D} _ _ _.
Arguments s_heap {D} _.
Arguments s_dev {D} _.
Arguments s_buffer {D} _.

Section Solaris.
Context {D A : Type}.
Context (sense_of : bytes -> result unit).
Context (drv : uscsi_driver D).
Context (timeout : Z).
Notation ex := (executer scsicmd (solaris_world D)).
Notation O := (wire uscsi_hdr A).
Notation G := (gen ex (dval O)).

(** _os_prepare_to_send, solaris.py:193-194. *)
Definition solaris_prepare (c : scsi_command) (idx : Z) (s : ex) : ex * result scsicmd :=
  let (h, r) := scsicmd_create c timeout (s_heap (world s)) in
  (with_world s (SolarisWorld h (s_dev (world s)) (s_buffer (world s))), Ok r).

(** _os_send, solaris.py:196-205.  The block is copied before and after the ioctl; the
    number of bytes yielded is that of the copy, one more than the structure has (65 in a 64-bit program, Ctypes.v). *)
Definition solaris_send (r : scsicmd) : G :=
  Gen (fun i s => match i with
    | Throw e => (s, Raise e)
    | Send _ =>
      match drv (u_hdr r) (s_heap (world s)) (s_dev (world s)) with
      | (h, d, _, Some errno) => (with_world s (SolarisWorld h d (Some (u_hdr r))), Raise (EIO errno))
      | (h, d, q, None) => (with_world s (SolarisWorld h d (Some q)),
                            Yield (YVal (VData (DInt 65))) gen_end)
      end
    end).

(** _handle_raw_response, solaris.py:207-232. *)
Definition solaris_handle (response : uscsi_hdr) (s : ex) : result (resp * Z) :=
  let packet_id := 0 in
  let request := get_os_data s packet_id in
  let status_code := Z.land (uscsi_status response) 255 in
  if negb (Z.land status_code SCSI_STATUS_CHECK_CONDITION =? 0) then
    do sense <- string_at (uscsi_rqbuf response) SENSE_SIZE (s_heap (world s));
    do r <- check_condition sense_of sense;
    Ok (r, packet_id)
  else if negb (status_code =? 0) then Ok (RespExn EAsiSCSI, packet_id)
  else if negb (uscsi_rqstatus response =? 0) then Ok (RespExn EAsiSCSI, packet_id)
  else
    match request with
    | None => Err EAttribute                                  (* None.uscsi_flags *)
    | Some r =>
      if negb (Z.land (uscsi_flags (u_hdr r)) USCSI_READ =? 0) && negb (uscsi_buflen (u_hdr r) =? 0) then
        match u_data_buffer r with
        | None => Err EAttribute
        | Some a => do b <- raw_of a (s_heap (world s)); Ok (RespData (Some b), packet_id)
        end
      else Ok (RespData None, packet_id)
    end.

(** solaris.py:214: the reason code put into error messages. *)
Definition solaris_reason (response : uscsi_hdr) : Z :=
  Z.land (Z.shiftl (uscsi_status response) 8) 255.

(** The end of _os_receive, solaris.py:236. *)
Definition solaris_receive_handle : G :=
  Gen (fun i s => match i with
    | Throw e => (s, Raise e)
    | Send (VData (DObj (WRaw raw))) =>
      match solaris_handle raw s with
      | Err e => (s, Raise e)
      | Ok (rp, pid) => (s, Yield (YVal (VData (DPair rp pid))) gen_end)
      end
    | Send _ => (s, Raise EType)
    end).

(** _os_receive, solaris.py:234-236; without a send there is no attribute buffer. *)
Definition solaris_receive : G :=
  Gen (fun i s => match i with
    | Throw e => (s, Raise e)
    | Send _ =>
      match s_buffer (world s) with
      | None => (s, Raise EAttribute)
      | Some b => (s, Yield (YVal (VData (DObj (WRaw b)))) solaris_receive_handle)
      end
    end).

(** SolarisCommandExecuter, solaris.py:187-236. *)
Definition solaris_os : os_layer scsicmd (solaris_world D) O scsi_command :=
  OsLayer solaris_prepare solaris_send solaris_receive.
End Solaris.
