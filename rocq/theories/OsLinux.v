(** Linux: SGIO, LinuxCommandExecuter and LinuxIoctlCommandExecuter,
    src/infi/asi/linux.py. *)
From Coq Require Import ZArith List Bool.
From Verif Require Import Base Gen Executer OsCommon.
Import ListNotations.
Open Scope Z_scope.

(** linux.py:67-71. *)
Definition SG_DXFER_NONE : Z := -1.
(** As above: linux.py:67-71. *)
Definition SG_DXFER_TO_DEV : Z := -2.
(** As above: linux.py:67-71. *)
Definition SG_DXFER_FROM_DEV : Z := -3.
(** As above: linux.py:67-71. *)
Definition SG_FLAG_DIRECT_IO : Z := 1.
(** linux.py:86. *)
Definition SG_ERR_DRIVER_SENSE : Z := 8.

(** The ctypes structure SGIO, linux.py:118-142.  Left out: iovec_count, usr_ptr,
    masked_status, msg_status, sb_len_wr, duration and info, which the code neither sets
    nor uses (they stay zero in requests). *)
Record sg_hdr : Type := SgHdr {
  interface_id : Z;
  dxfer_direction : Z;
  cmd_len : Z;
  mx_sb_len : Z;
  dxfer_len : Z;
  dxferp : option addr;
  cmdp : option addr;
  sbp : option addr;
  hdr_timeout : Z;
  hdr_flags : Z;
  pack_id : Z;
  status : Z;
  host_status : Z;
  driver_status : Z;
  resid : Z
}.

(** An SGIO object: the structure and the Python attribute data_buffer (158-165), which
    exists only if a buffer was set. [linux.py:118-165] *)
Record sgio : Type := Sgio {
  hdr : sg_hdr;
  data_buffer : option addr
}.

(** SGIO.create, linux.py:179-203, with init_sense_buffer (148-151),
    init_command_buffer (153-156) and set_data_buffer (158-165) inlined. *)
Definition sgio_create (packet : Z) (c : scsi_command) (timeout : Z) (h : heap) : heap * sgio :=
  let (h1, sense) := alloc h (zeros SENSE_SIZE) in
  let (h2, cmd) := alloc h1 (command_of c) in
  let make dir len p :=
    SgHdr 83 (c_int dir) (c_ubyte (zlen (command_of c))) (c_ubyte (Z.of_nat SENSE_SIZE))
      (c_uint len) p (Some cmd) (Some sense) (c_uint timeout) SG_FLAG_DIRECT_IO
      (c_int packet) 0 0 0 0 in
  match c with
  | ReadCmd _ n =>
    if 0 <? n then
      let (h3, buf) := alloc h2 (zeros (Z.to_nat n)) in
      (h3, Sgio (make SG_DXFER_FROM_DEV n (Some buf)) (Some buf))
    else (h2, Sgio (make SG_DXFER_NONE 0 None) None)
  | WriteCmd _ data =>
    let (h3, buf) := alloc h2 data in
    (h3, Sgio (make SG_DXFER_TO_DEV (zlen data) (Some buf)) (Some buf))
  end.

(** The sg driver as seen through the device file: write (UnixFile.write, unix.py:26-27),
    read (unix.py:15-24; [None] stands for fewer bytes than the structure has) and the
    SG_IO ioctl, which returns the completed structure.  Each may change memory. *)
Record sg_driver (D : Type) : Type := SgDriver {
  sg_write : sg_hdr -> heap -> D -> heap * D * result Z;
  sg_read : heap -> D -> heap * D * result (option sg_hdr);
  sg_ioctl : sg_hdr -> heap -> D -> heap * D * result sg_hdr
}.
Arguments SgDriver {D} _ _ _.
Arguments sg_write {D} _ _ _ _.
Arguments sg_read {D} _ _ _.
Arguments sg_ioctl {D} _ _ _ _.

(** Memory, driver state, and the attribute [buffer] of the ioctl executer.
    [linux.py:149-165, 285-293] *)
Record linux_world (D : Type) : Type := LinuxWorld {
  l_heap : heap;
  l_dev : D;
  l_buffer : option sg_hdr
}.
Arguments LinuxWorld {D} _ _ _.
Arguments l_heap {D} _.
Arguments l_dev {D} _.
Arguments l_buffer {D} _.

Section Linux.
Context {D A : Type}.
Context (sense_of : bytes -> result unit).
Context (drv : sg_driver D).
Context (timeout : Z).
Notation ex := (executer sgio (linux_world D)).
Notation O := (wire (option sg_hdr) A).
Notation G := (gen ex (dval O)).

(** _os_prepare_to_send, linux.py:222-223. *)
Definition linux_prepare (c : scsi_command) (idx : Z) (s : ex) : ex * result sgio :=
  let (h, r) := sgio_create idx c timeout (l_heap (world s)) in
  (with_world s (LinuxWorld h (l_dev (world s)) (l_buffer (world s))), Ok r).

(** _os_send, linux.py:225-226. *)
Definition linux_send (r : sgio) : G :=
  Gen (fun i s => match i with
    | Throw e => (s, Raise e)
    | Send _ =>
      match sg_write drv (hdr r) (l_heap (world s)) (l_dev (world s)) with
      | (h, d, Err e) => (with_world s (LinuxWorld h d (l_buffer (world s))), Raise e)
      | (h, d, Ok n) => (with_world s (LinuxWorld h d (l_buffer (world s))),
                         Yield (YVal (VData (DInt n))) gen_end)
      end
    end).

(** _handle_raw_response, linux.py:228-270. *)
Definition linux_handle (raw : option sg_hdr) (s : ex) : result (resp * Z) :=
  match raw with
  | None => Err EValue                                        (* from_buffer: too small *)
  | Some response =>
    let packet_id := pack_id response in
    let request := get_os_data s packet_id in
    if negb (Z.land (status response) SCSI_STATUS_CHECK_CONDITION =? 0)
       || negb (Z.land (driver_status response) SG_ERR_DRIVER_SENSE =? 0) then
      do sense <- string_at (sbp response) SENSE_SIZE (l_heap (world s));
      do r <- check_condition sense_of sense;
      Ok (r, packet_id)
    else if negb (status response =? 0) then
      if host_status response =? 7 then Ok (RespExn EAsiQueueFull, packet_id)
      else if host_status response =? SCSI_STATUS_RESERVATION_CONFLICT
      then Ok (RespExn EAsiReservationConflict, packet_id)
      else Ok (RespExn EAsiSCSI, packet_id)
    else if negb (Z.land (driver_status response) 15 =? 0) then Ok (RespExn EAsiSCSI, packet_id)
    else if negb (host_status response =? 0) then Ok (RespExn EAsiSCSI, packet_id)
    else
      match request with
      | None => Err EAttribute                                (* None.dxfer_direction *)
      | Some r =>
        if (dxfer_direction (hdr r) =? SG_DXFER_FROM_DEV) && negb (dxfer_len (hdr r) =? 0) then
          match data_buffer r with
          | None => Err EAttribute
          | Some a => do b <- raw_of a (l_heap (world s)); Ok (RespData (Some b), packet_id)
          end
        else Ok (RespData None, packet_id)
      end
  end.

(** The end of _os_receive, linux.py:274 and 293. *)
Definition linux_receive_handle : G :=
  Gen (fun i s => match i with
    | Throw e => (s, Raise e)
    | Send (VData (DObj (WRaw raw))) =>
      match linux_handle raw s with
      | Err e => (s, Raise e)
      | Ok (rp, pid) => (s, Yield (YVal (VData (DPair rp pid))) gen_end)
      end
    | Send _ => (s, Raise EType)
    end).

(** _os_receive, linux.py:272-274. *)
Definition linux_receive : G :=
  Gen (fun i s => match i with
    | Throw e => (s, Raise e)
    | Send _ =>
      match sg_read drv (l_heap (world s)) (l_dev (world s)) with
      | (h, d, Err e) => (with_world s (LinuxWorld h d (l_buffer (world s))), Raise e)
      | (h, d, Ok raw) => (with_world s (LinuxWorld h d (l_buffer (world s))),
                           Yield (YVal (VData (DObj (WRaw raw)))) linux_receive_handle)
      end
    end).

(** LinuxCommandExecuter, linux.py:216-274. *)
Definition linux_os : os_layer sgio (linux_world D) O scsi_command :=
  OsLayer linux_prepare linux_send linux_receive.

(** LinuxIoctlCommandExecuter._os_send, linux.py:285-289.  to_raw() is an immutable copy;
    what the ioctl makes of it is returned by fcntl.ioctl and dropped. *)
Definition linux_ioctl_send (r : sgio) : G :=
  Gen (fun i s => match i with
    | Throw e => (s, Raise e)
    | Send _ =>
      match sg_ioctl drv (hdr r) (l_heap (world s)) (l_dev (world s)) with
      | (h, d, Err e) => (with_world s (LinuxWorld h d (Some (hdr r))), Raise e)
      | (h, d, Ok _) => (with_world s (LinuxWorld h d (Some (hdr r))),
                         Yield (YVal (VData (DInt 88))) gen_end)
      end
    end).

(** LinuxIoctlCommandExecuter._os_receive, linux.py:291-293; without a send there is no
    attribute buffer. *)
Definition linux_ioctl_receive : G :=
  Gen (fun i s => match i with
    | Throw e => (s, Raise e)
    | Send _ =>
      match l_buffer (world s) with
      | None => (s, Raise EAttribute)
      | Some b => (s, Yield (YVal (VData (DObj (WRaw (Some b))))) linux_receive_handle)
      end
    end).

(** LinuxIoctlCommandExecuter, linux.py:279-293. *)
Definition linux_ioctl_os : os_layer sgio (linux_world D) O scsi_command :=
  OsLayer linux_prepare linux_ioctl_send linux_ioctl_receive.
End Linux.
