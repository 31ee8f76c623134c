(** Windows: SCSIPassThroughDirect, Win32File.ioctl, Win32AsyncFile.ioctl and
    Win32CommandExecuter, src/infi/asi/win32.py. *)
From Coq Require Import ZArith List Bool.
From Verif Require Import Base Gen Executer OsCommon OsAix.
Import ListNotations.
Open Scope Z_scope.

(** win32.py:267-269 and 11. *)
Definition SCSI_IOCTL_DATA_OUT : Z := 0.
(** As above: win32.py:267-269. *)
Definition SCSI_IOCTL_DATA_IN : Z := 1.
(** As above: win32.py:267-269. *)
Definition SCSI_IOCTL_DATA_UNSPECIFIED : Z := 2.
(** As above: win32.py:267-269. *)
Definition SCSISTAT_CHECK_CONDITION : Z := 2.
(** ERROR_IO_PENDING, win32.py:41. *)
Definition ERROR_IO_PENDING : Z := 997.

(** The ctypes structure SCSIPassThroughDirect, win32.py:277-314.  Left out: Length,
    PathId, TargetId, Lun, SenseInfoOffset and paddings, which are constants. *)
Record spt_hdr : Type := SptHdr {
  ScsiStatus : Z;
  CdbLength : Z;
  SenseInfoLength : Z;
  DataIn : Z;
  DataTransferLength : Z;
  TimeOutValue : Z;
  DataBuffer : option addr;
  Cdb : bytes;
  spt_sense : bytes
}.

(** A SCSIPassThroughDirect object: its structure (changed in place by DeviceIoControl,
    kept in a store), and the Python attributes packet_id and data_buffer. [win32.py:277-358] *)
Record spt : Type := Spt {
  spt_obj : nat;
  packet_id : Z;
  spt_data : option addr
}.

(** SCSIPassThroughDirect.create, win32.py:327-358, with set_data_buffer (316-323)
    inlined. *)
Definition spt_create (c : scsi_command) (h : heap) : result (heap * spt_hdr * option addr) :=
  if (16 <? length (command_of c))%nat then Err EIndex      (* spt.Cdb[16] = ... *)
  else
    let cdb := firstn 16 (command_of c ++ zeros 16) in
    let make dir len p :=
      SptHdr 0 (c_ubyte (zlen (command_of c))) (c_ubyte (Z.of_nat SENSE_SIZE)) dir (c_uint len) 10 p cdb
        (zeros SENSE_SIZE) in
    match c with
    | ReadCmd _ n =>
      if 0 <? n then
        let (h1, buf) := alloc h (zeros (Z.to_nat n)) in
        Ok (h1, make SCSI_IOCTL_DATA_IN n (Some buf), Some buf)
      else Ok (h, make SCSI_IOCTL_DATA_UNSPECIFIED 0 None, None)
    | WriteCmd _ data =>
      if 0 <? zlen data then
        let (h1, buf) := alloc h data in
        Ok (h1, make SCSI_IOCTL_DATA_OUT (zlen data) (Some buf), Some buf)
      else Ok (h, make SCSI_IOCTL_DATA_UNSPECIFIED 0 None, None)
    end.

(** The kernel side.  [dev_control]: DeviceIoControl without an overlapped structure:
    memory, driver state and structure afterwards, and the number of bytes returned, or
    [None] if it failed.  [dev_start]: with an overlapped structure: its result and the
    last error.  [dev_finish]: GetOverlappedResult with block=True; whether it reports
    failure, and the number of bytes. [win32.py:129-134, 146-150, 162-171] *)
Record win_driver (D : Type) : Type := WinDriver {
  dev_control : spt_hdr -> heap -> D -> heap * D * spt_hdr * option Z;
  dev_start : spt_hdr -> heap -> D -> heap * D * spt_hdr * (bool * Z);
  dev_finish : spt_hdr -> heap -> D -> heap * D * spt_hdr * (bool * Z)
}.
Arguments WinDriver {D} _ _ _.
Arguments dev_control {D} _ _ _ _.
Arguments dev_start {D} _ _ _ _.
Arguments dev_finish {D} _ _ _ _.

(** Memory, structures, driver state and the attribute incoming_packets. [win32.py:361-364] *)
Record win_world (D : Type) : Type := WinWorld {
  w_heap : heap;
  w_objs : list spt_hdr;
  w_dev : D;
  incoming_packets : list spt
}.
Arguments WinWorld {D} _ _ _ _.
Arguments w_heap {D} _.
Arguments w_objs {D} _.
Arguments w_dev {D} _.
Arguments incoming_packets {D} _.

Section Win32.
Context {D A : Type}.
Context (sense_of : bytes -> result unit).
Context (drv : win_driver D).
Notation ex := (executer spt (win_world D)).
Notation O := (wire unit A).
Notation G := (gen ex (dval O)).

(** _os_prepare_to_send, win32.py:366-367. *)
Definition win_prepare (c : scsi_command) (idx : Z) (s : ex) : ex * result spt :=
  let w := world s in
  match spt_create c (w_heap w) with
  | Err e => (s, Err e)
  | Ok (h, q, buf) => (with_world s (WinWorld h (w_objs w ++ [q]) (w_dev w) (incoming_packets w)),
                       Ok (Spt (length (w_objs w)) idx buf))
  end.

(** The end of _os_send, win32.py:373: incoming_packets.append(os_data). *)
Definition win_send_append (r : spt) : G :=
  Gen (fun i s => match i with
    | Throw e => (s, Raise e)
    | Send _ =>
      let w := world s in
      (with_world s (WinWorld (w_heap w) (w_objs w) (w_dev w) (incoming_packets w ++ [r])), Stop)
    end).

(** _os_send, win32.py:369-373, with Win32File.ioctl (129-134). *)
Definition win_send (r : spt) : G :=
  Gen (fun i s => match i with
    | Throw e => (s, Raise e)
    | Send _ =>
      let w := world s in
      match nth_error (w_objs w) (spt_obj r) with
      | None => (s, Raise EFault)
      | Some q0 =>
        match dev_control drv q0 (w_heap w) (w_dev w) with
        | (h, d, q, res) =>
          let s1 := with_world s (WinWorld h (put_obj (spt_obj r) q (w_objs w)) d (incoming_packets w)) in
          match res with
          | None => (s1, Raise EAsiOS)
          | Some n => (s1, Yield (YVal (VData (DInt n))) (win_send_append r))
          end
        end
      end
    end).

(** WinAsyncIOToken.get_result, win32.py:146-150: the error code is not looked at. *)
Definition win_token (r : spt) : ex -> ex * result (val (dval O)) :=
  fun s =>
    let w := world s in
    match nth_error (w_objs w) (spt_obj r) with
    | None => (s, Err EFault)
    | Some q0 =>
      match dev_finish drv q0 (w_heap w) (w_dev w) with
      | (h, d, q, (_, n)) =>
        (with_world s (WinWorld h (put_obj (spt_obj r) q (w_objs w)) d (incoming_packets w)),
         Ok (VData (DInt n)))
      end
    end.

(** Win32AsyncFile.ioctl, win32.py:162-171. *)
Definition win_async_ioctl (r : spt) : G :=
  Gen (fun i s => match i with
    | Throw e => (s, Raise e)
    | Send _ =>
      let w := world s in
      match nth_error (w_objs w) (spt_obj r) with
      | None => (s, Raise EFault)
      | Some q0 =>
        match dev_start drv q0 (w_heap w) (w_dev w) with
        | (h, d, q, (api_result, last_error)) =>
          let s1 := with_world s (WinWorld h (put_obj (spt_obj r) q (w_objs w)) d (incoming_packets w)) in
          if negb api_result && (last_error =? ERROR_IO_PENDING)
          then (s1, Yield (YTok (win_token r)) gen_end)
          else (s1, Raise EAsiOS)
        end
      end
    end).

(** _os_send, win32.py:369-373, over a Win32AsyncFile. *)
Definition win_send_async (r : spt) : G :=
  Gen (fun i s => match i with
    | Throw e => (s, Raise e)
    | Send _ => (s, Yield (YGen (win_async_ioctl r)) (win_send_append r))
    end).

(** list.pop(): the last element (used in win32.py:376). *)
Definition pop_last {X} (l : list X) : option (list X * X) :=
  match rev l with [] => None | x :: r => Some (rev r, x) end.

(** Body of _os_receive after the pop, win32.py:377-387. *)
Definition win_handle (r : spt) (w : win_world D) : result (resp * Z) :=
  match nth_error (w_objs w) (spt_obj r) with
  | None => Err EFault
  | Some q =>
    if negb (ScsiStatus q =? 0) then
      if ScsiStatus q =? SCSISTAT_CHECK_CONDITION then
        do x <- check_condition sense_of (spt_sense q); Ok (x, packet_id r)
      else Ok (RespExn EAsiSCSI, packet_id r)
    else if (DataIn q =? SCSI_IOCTL_DATA_IN) && negb (DataTransferLength q =? 0) then
      match spt_data r with
      | None => Err EAttribute
      | Some a => do b <- raw_of a (w_heap w);
                  Ok (RespData (Some (firstn (Z.to_nat (DataTransferLength q)) b)), packet_id r)
      end
    else Ok (RespData None, packet_id r)
  end.

(** _os_receive, win32.py:375-387. *)
Definition win_receive : G :=
  Gen (fun i s => match i with
    | Throw e => (s, Raise e)
    | Send _ =>
      let w := world s in
      match pop_last (incoming_packets w) with
      | None => (s, Raise EIndex)
      | Some (rest, r) =>
        let w1 := WinWorld (w_heap w) (w_objs w) (w_dev w) rest in
        match win_handle r w1 with
        | Err e => (with_world s w1, Raise e)
        | Ok (rp, pid) => (with_world s w1, Yield (YVal (VData (DPair rp pid))) gen_end)
        end
      end
    end).

(** Win32CommandExecuter over a Win32File and over a Win32AsyncFile, win32.py:360-387. *)
Definition win_os : os_layer spt (win_world D) O scsi_command :=
  OsLayer win_prepare win_send win_receive.
(** As above: win32.py:360-387. *)
Definition win_async_os : os_layer spt (win_world D) O scsi_command :=
  OsLayer win_prepare win_send_async win_receive.
End Win32.
