(** Specification of devices behind the Solaris, AIX and Windows pass-through interfaces,
    written from the descriptions of the interfaces; compare SpecSg.v. *)
From Coq Require Import ZArith List Bool.
From Verif Require Import Base Gen Executer OsCommon OsLinux OsSolaris OsAix OsWin32 SpecSg.
Import ListNotations.
Open Scope Z_scope.

(** Commands that fit the request blocks of the three systems. *)
Definition fits64 (c : scsi_command) : Prop :=
  zlen (command_of c) < 256 /\ match c with ReadCmd _ n => n < 2 ^ 64 | WriteCmd _ d => zlen d < 2 ^ 64 end.
Definition aix_fits (c : scsi_command) : Prop :=
  zlen (command_of c) <= 64 /\ match c with ReadCmd _ n => n < 2 ^ 64 | WriteCmd _ d => zlen d < 2 ^ 64 end.
Definition win_fits (c : scsi_command) : Prop :=
  zlen (command_of c) <= 16 /\ match c with ReadCmd _ n => n < 2 ^ 32 | WriteCmd _ d => zlen d < 2 ^ 32 end.
Definition byte_status (a : answer) : Prop := 0 <= a_status a < 256.

(** The request [r] has its structure [q] and its data buffer in memory. *)
Definition aix_intact {D} (w : aix_world D) (r : passthru) (q : sc_hdr) : Prop :=
  nth_error (x_objs w) (p_obj r) = Some q /\
  (forall a, p_data_buffer r = Some a -> (a < length (x_heap w))%nat) /\
  (Z.testbit (sc_flags q) 0 = true -> p_data_buffer r <> None).
Definition win_intact {D} (w : win_world D) (r : spt) (q : spt_hdr) : Prop :=
  nth_error (w_objs w) (spt_obj r) = Some q /\
  (forall a, spt_data r = Some a -> (a < length (w_heap w))%nat) /\
  (DataIn q = 1 -> spt_data r <> None).
(** The world of the Windows executer with these received packets left. *)
Definition popped {D} (w : win_world D) (rest : list spt) : win_world D :=
  WinWorld (w_heap w) (w_objs w) (w_dev w) rest.

Section Drivers.
Context {T : Type} (tgt : target T).

(** Solaris uscsi(7I).  [fails] tells for which answers the ioctl itself returns an error
    (EIO = 5). *)
Definition uscsi_reads (q : uscsi_hdr) : bool := Z.testbit (uscsi_flags q) 3.
Definition uscsi_done (q : uscsi_hdr) (a : answer) : uscsi_hdr :=
  UscsiHdr (uscsi_flags q) (a_status a) (uscsi_timeout q) (uscsi_cdb q) (uscsi_bufaddr q)
    (uscsi_buflen q) (uscsi_cdblen q) (uscsi_rqlen q) (uscsi_rqstatus q) (uscsi_rqbuf q).
Definition uscsi_mem (q : uscsi_hdr) (a : answer) (h : heap) : heap :=
  poke (uscsi_rqbuf q) (Z.to_nat (uscsi_rqlen q)) (a_sense a)
    (if uscsi_reads q then poke (uscsi_bufaddr q) (Z.to_nat (uscsi_buflen q)) (a_data a) h else h).
Definition uscsi_data (q : uscsi_hdr) (h : heap) : bytes :=
  if uscsi_reads q then [] else peek (uscsi_bufaddr q) (Z.to_nat (uscsi_buflen q)) h.
Definition honest_uscsi (fails : answer -> bool) : uscsi_driver T := fun q h t =>
  let (t', a) := tgt t (peek (uscsi_cdb q) (Z.to_nat (uscsi_cdblen q)) h) (uscsi_data q h) in
  (uscsi_mem q a h, t', uscsi_done q a, if fails a then Some 5 else None).
Definition solaris_expected (c : scsi_command) (a : answer) : resp :=
  if Z.testbit (a_status a) 1 then RespExn (EAsiCheckCondition (pad 255 (a_sense a)))
  else if a_status a =? 0 then RespData (data_wanted c (a_data a))
  else RespExn EAsiSCSI.

(** AIX DK_PASSTHRU: a SCSI error sets status_validity 1 and the bus status, an adapter
    error status_validity 2; in both cases the ioctl fails. *)
Definition sc_reads (q : sc_hdr) : bool := Z.testbit (sc_flags q) 0.
Definition sc_validity (a : answer) : Z :=
  if negb (a_status a =? 0) then 1 else if negb (a_host a =? 0) then 2 else 0.
Definition sc_done (q : sc_hdr) (a : answer) : sc_hdr :=
  ScHdr (sc_version q) (sc_validity a) (a_status a) (sc_flags q) (devflags q) (command_length q) 0
    (autosense_length q) (timeout_value q) (data_length q) (sc_buffer q) (autosense_buffer_ptr q) (scsi_cdb q).
Definition sc_mem (q : sc_hdr) (a : answer) (h : heap) : heap :=
  poke (autosense_buffer_ptr q) (Z.to_nat (autosense_length q)) (a_sense a)
    (if sc_reads q then poke (sc_buffer q) (Z.to_nat (data_length q)) (a_data a) h else h).
Definition sc_data (q : sc_hdr) (h : heap) : bytes :=
  if sc_reads q then [] else peek (sc_buffer q) (Z.to_nat (data_length q)) h.
Definition honest_sc : sc_driver T := fun q h t =>
  let (t', a) := tgt t (firstn (Z.to_nat (command_length q)) (scsi_cdb q)) (sc_data q h) in
  (sc_mem q a h, t', sc_done q a, negb (sc_validity a =? 0)).
Definition aix_expected (c : scsi_command) (a : answer) : resp :=
  if a_status a =? 0
  then if a_host a =? 0 then RespData (data_wanted c (a_data a)) else RespExn EAsiSCSI
  else if Z.testbit (a_status a) 1 then RespExn (EAsiCheckCondition (pad 255 (a_sense a)))
  else RespExn EAsiSCSI.

(** Windows IOCTL_SCSI_PASS_THROUGH_DIRECT: DataTransferLength is set to the number of
    bytes transferred; an adapter error makes DeviceIoControl fail.  Over an asynchronous
    handle it is always pending. *)
Definition spt_reads (q : spt_hdr) : bool := DataIn q =? 1.
Definition spt_done (q : spt_hdr) (a : answer) : spt_hdr :=
  SptHdr (a_status a) (CdbLength q) (SenseInfoLength q) (DataIn q)
    (if spt_reads q then Z.min (DataTransferLength q) (zlen (a_data a)) else DataTransferLength q)
    (TimeOutValue q) (DataBuffer q) (Cdb q)
    (overwrite (Z.to_nat (SenseInfoLength q)) (a_sense a) (spt_sense q)).
Definition spt_mem (q : spt_hdr) (a : answer) (h : heap) : heap :=
  if spt_reads q then poke (DataBuffer q) (Z.to_nat (DataTransferLength q)) (a_data a) h else h.
Definition spt_data_out (q : spt_hdr) (h : heap) : bytes :=
  if DataIn q =? 0 then peek (DataBuffer q) (Z.to_nat (DataTransferLength q)) h else [].
Definition spt_run (q : spt_hdr) (h : heap) (t : T) : T * answer :=
  tgt t (firstn (Z.to_nat (CdbLength q)) (Cdb q)) (spt_data_out q h).
Definition honest_control (q : spt_hdr) (h : heap) (t : T) : heap * T * spt_hdr * option Z :=
  let (t', a) := spt_run q h t in
  if a_host a =? 0 then (spt_mem q a h, t', spt_done q a, Some (zlen (a_data a))) else (h, t', q, None).
Definition honest_start (q : spt_hdr) (h : heap) (t : T) : heap * T * spt_hdr * (bool * Z) :=
  (h, t, q, (false, 997)).
Definition honest_finish (q : spt_hdr) (h : heap) (t : T) : heap * T * spt_hdr * (bool * Z) :=
  let (t', a) := spt_run q h t in
  if a_host a =? 0 then (spt_mem q a h, t', spt_done q a, (true, zlen (a_data a)))
  else (h, t', q, (false, 0)).
Definition honest_win : win_driver T := WinDriver honest_control honest_start honest_finish.
Definition win_data (c : scsi_command) (data : bytes) : option bytes :=
  match c with
  | ReadCmd _ n => if (0 <? n) && (0 <? zlen data) then Some (firstn (Z.to_nat n) data) else None
  | WriteCmd _ _ => None
  end.
Definition win_expected (c : scsi_command) (a : answer) : resp :=
  if a_status a =? 0 then RespData (win_data c (a_data a))
  else if a_status a =? 2 then RespExn (EAsiCheckCondition (pad 255 (a_sense a)))
  else RespExn EAsiSCSI.
End Drivers.
