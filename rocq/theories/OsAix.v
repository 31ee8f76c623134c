(** AIX: sc_passthru and AixCommandExecuter, src/infi/asi/aix.py. *)
From Coq Require Import ZArith List Bool.
From Verif Require Import Base Gen Executer OsCommon.
Import ListNotations.
Open Scope Z_scope.

(** aix.py:176-196. *)
Definition B_WRITE : Z := 0.
(** As above: aix.py:176-196. *)
Definition B_READ : Z := 1.
(** As above: aix.py:176-196. *)
Definition SC_PASSTHRU_CDB_LEN : nat := 64.
(** As above: aix.py:176-196. *)
Definition SC_SCSI_ERROR : Z := 1.
(** As above: aix.py:176-196. *)
Definition SC_ADAPTER_ERROR : Z := 2.
(** As above: aix.py:176-196. *)
Definition SCSI_VERSION_2 : Z := 2.
(** As above: aix.py:176-196. *)
Definition SC_MIX_IO : Z := 1.
(** As above: aix.py:176-196. *)
Definition SCSI_STATUS_MASK : Z := 30.

(** The ctypes structure sc_passthru, aix.py:246-275.  Left out are the fields that the
    code neither sets nor uses (adapter_status goes into error messages only). *)
Record sc_hdr : Type := ScHdr {
  sc_version : Z;
  status_validity : Z;
  scsi_bus_status : Z;
  sc_flags : Z;
  devflags : Z;
  command_length : Z;
  einval_arg : Z;
  autosense_length : Z;
  timeout_value : Z;
  data_length : Z;
  sc_buffer : option addr;
  autosense_buffer_ptr : option addr;
  scsi_cdb : bytes
}.

(** An sc_passthru object.  The ioctl gets the address of the structure inside it and
    changes it in place, so the structures live in a store and the object is its number
    there together with the Python attribute data_buffer (294-300). [aix.py:246-300] *)
Record passthru : Type := Passthru {
  p_obj : nat;
  p_data_buffer : option addr
}.

(** sc_passthru.create, aix.py:309-331, with init_sense_buffer (281-284),
    init_command_buffer (286-292) and set_data_buffer (294-300) inlined.  The packet id
    is not used. *)
Definition passthru_create (c : scsi_command) (timeout : Z) (h : heap) : heap * sc_hdr * option addr :=
  let (h1, sense) := alloc h (zeros SENSE_SIZE) in
  let (h2, _) := alloc h1 (command_of c) in
  let cdb := firstn SC_PASSTHRU_CDB_LEN (command_of c ++ zeros SC_PASSTHRU_CDB_LEN) in
  let make dir len p :=
    ScHdr SCSI_VERSION_2 0 0 dir SC_MIX_IO (c_ushort (zlen (command_of c))) 0
      (c_ushort (Z.of_nat SENSE_SIZE)) (c_uint timeout) (c_ulonglong len) p (Some sense) cdb in
  match c with
  | ReadCmd _ n =>
    if 0 <? n then
      let (h3, buf) := alloc h2 (zeros (Z.to_nat n)) in
      (h3, make B_READ n (Some buf), Some buf)
    else (h2, make B_WRITE 0 None, None)
  | WriteCmd _ data =>
    let (h3, buf) := alloc h2 data in
    (h3, make B_WRITE (zlen data) (Some buf), Some buf)
  end.

(** ioctl(fd, DK_PASSTHRU, address): memory, driver state and block afterwards, and
    whether it failed. [aix.py:344-361, 375] *)
Definition sc_driver (D : Type) : Type := sc_hdr -> heap -> D -> heap * D * sc_hdr * bool.

(** Memory, structures, driver state and the attribute [buffer]. [aix.py:364-384] *)
Record aix_world (D : Type) : Type := AixWorld {
  x_heap : heap;
  x_objs : list sc_hdr;
  x_dev : D;
  x_buffer : option sc_hdr
}.
Arguments AixWorld {D} _ _ _ _.
Arguments x_heap {D} _.
Arguments x_objs {D} _.
Arguments x_dev {D} _.
Arguments x_buffer {D} _.

(** Store [x] in place of structure number [k] (models no lines).
    [aix.py:375, structure changed in place] *)
Fixpoint put_obj {H : Type} (k : nat) (x : H) (l : list H) : list H :=
  match l, k with
  | [], _ => []
  | _ :: r, 0%nat => x :: r
  | y :: r, Datatypes.S k => y :: put_obj k x r
  end.

Section Aix.
Context {D A : Type}.
Context (sense_of : bytes -> result unit).
Context (drv : sc_driver D).
Context (timeout : Z).
(** Which ioctl get_ioctl_function (aix.py:344-361) found: ctypes (true), whose result
    is ignored, or fcntl.ioctl (false), which raises IOError on failure. *)
Context (use_ctypes : bool).
Notation ex := (executer passthru (aix_world D)).
Notation O := (wire sc_hdr A).
Notation G := (gen ex (dval O)).

(** _os_prepare_to_send, aix.py:369-370. *)
Definition aix_prepare (c : scsi_command) (idx : Z) (s : ex) : ex * result passthru :=
  let w := world s in
  match passthru_create c timeout (x_heap w) with
  | (h, q, buf) => (with_world s (AixWorld h (x_objs w ++ [q]) (x_dev w) (x_buffer w)),
                    Ok (Passthru (length (x_objs w)) buf))
  end.

(** _os_send, aix.py:372-384.  168 is sizeof(sc_passthru) in a 64-bit program (Ctypes.v). *)
Definition aix_send (r : passthru) : G :=
  Gen (fun i s => match i with
    | Throw e => (s, Raise e)
    | Send _ =>
      let w := world s in
      match nth_error (x_objs w) (p_obj r) with
      | None => (s, Raise EFault)
      | Some q0 =>
        match drv q0 (x_heap w) (x_dev w) with
        | (h, d, q, failed) =>
          let objs := put_obj (p_obj r) q (x_objs w) in
          let raised := failed && negb use_ctypes in
          if raised && negb (einval_arg q =? 0) then
            (with_world s (AixWorld h objs d (x_buffer w)), Raise EAsiOS)
          else if raised && (status_validity q =? 0) then
            (with_world s (AixWorld h objs d (x_buffer w)), Raise EAsiOS)
          else (with_world s (AixWorld h objs d (Some q)),
                Yield (YVal (VData (DInt 168))) gen_end)
        end
      end
    end).

(** _handle_raw_response, aix.py:386-407; AixAsiSCSIError (237-243) is an AsiSCSIError. *)
Definition aix_handle (response : sc_hdr) (s : ex) : result (resp * Z) :=
  let packet_id := 0 in
  let request := get_os_data s packet_id in
  if negb (status_validity response =? 0) then
    if status_validity response =? SC_SCSI_ERROR then
      let scsi_status := Z.land (scsi_bus_status response) SCSI_STATUS_MASK in
      if negb (Z.land scsi_status SCSI_STATUS_CHECK_CONDITION =? 0) then
        do sense <- string_at (autosense_buffer_ptr response) SENSE_SIZE (x_heap (world s));
        do r <- check_condition sense_of sense;
        Ok (r, packet_id)
      else Ok (RespExn EAsiSCSI, packet_id)
    else if status_validity response =? SC_ADAPTER_ERROR then Ok (RespExn EAsiSCSI, packet_id)
    else Ok (RespExn EAsiSCSI, packet_id)
  else
    match request with
    | None => Err EAttribute                                  (* None.flags *)
    | Some r =>
      match nth_error (x_objs (world s)) (p_obj r) with
      | None => Err EFault
      | Some q =>
        if negb (Z.land (sc_flags q) B_READ =? 0) && negb (data_length q =? 0) then
          match p_data_buffer r with
          | None => Err EAttribute
          | Some a => do b <- raw_of a (x_heap (world s)); Ok (RespData (Some b), packet_id)
          end
        else Ok (RespData None, packet_id)
      end
    end.

(** The end of _os_receive, aix.py:411. *)
Definition aix_receive_handle : G :=
  Gen (fun i s => match i with
    | Throw e => (s, Raise e)
    | Send (VData (DObj (WRaw raw))) =>
      match aix_handle raw s with
      | Err e => (s, Raise e)
      | Ok (rp, pid) => (s, Yield (YVal (VData (DPair rp pid))) gen_end)
      end
    | Send _ => (s, Raise EType)
    end).

(** _os_receive, aix.py:409-411; without a send there is no attribute buffer. *)
Definition aix_receive : G :=
  Gen (fun i s => match i with
    | Throw e => (s, Raise e)
    | Send _ =>
      match x_buffer (world s) with
      | None => (s, Raise EAttribute)
      | Some b => (s, Yield (YVal (VData (DObj (WRaw b)))) aix_receive_handle)
      end
    end).

(** AixCommandExecuter, aix.py:363-411. *)
Definition aix_os : os_layer passthru (aix_world D) O scsi_command :=
  OsLayer aix_prepare aix_send aix_receive.
End Aix.
