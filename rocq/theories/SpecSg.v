(** Specification of a device behind the Linux sg driver, written from the description of
    the interface (sg.h): what the driver does with a request block, independent of the
    code that builds and reads it. *)
From Coq Require Import ZArith List Bool.
From Verif Require Import Base OsCommon OsLinux Executer.
Import ListNotations.
Open Scope Z_scope.

(** Outcome of one SCSI command. *)
Record answer : Type := Answer {
  a_status : Z;          (* SCSI status byte *)
  a_host : Z;            (* host adapter status *)
  a_driver : Z;          (* driver status *)
  a_data : bytes;        (* data-in *)
  a_sense : bytes        (* sense data *)
}.

(** A target: executes a CDB with data-out. *)
Definition target (T : Type) := T -> bytes -> bytes -> T * answer.

(** [l] cut or zero-padded to [n] bytes. *)
Definition pad (n : nat) (l : bytes) : bytes := firstn n l ++ zeros (n - length l).

(** Put the first [n] bytes of [new] at the start of buffer [b]. *)
Definition overwrite (n : nat) (new b : bytes) : bytes :=
  firstn (length b) (firstn n new ++ skipn (length (firstn n new)) b).
Fixpoint set_nth (h : heap) (a : addr) (b : bytes) : heap :=
  match h, a with
  | [], _ => []
  | _ :: r, O => b :: r
  | x :: r, S k => x :: set_nth r k b
  end.
Definition poke (p : option addr) (n : nat) (new : bytes) (h : heap) : heap :=
  match p with
  | None => h
  | Some a => match nth_error h a with
              | None => h
              | Some b => set_nth h a (overwrite n new b)
              end
  end.
Definition peek (p : option addr) (n : nat) (h : heap) : bytes :=
  match p with
  | None => []
  | Some a => match nth_error h a with None => [] | Some b => firstn n b end
  end.

(** Driver state: target and completed commands not fetched yet, oldest first. *)
Definition sg_state (T : Type) := (T * list (sg_hdr * answer))%type.

(** The command and the data-out that a request block describes. *)
Definition described_cdb (q : sg_hdr) (h : heap) : bytes := peek (cmdp q) (Z.to_nat (cmd_len q)) h.
Definition described_data (q : sg_hdr) (h : heap) : bytes :=
  if dxfer_direction q =? -2 then peek (dxferp q) (Z.to_nat (dxfer_len q)) h else [].

(** Completion: data-in to the data buffer (direction FROM_DEV = -3), sense data to the
    sense buffer, statuses to the block. *)
Definition completed_hdr (q : sg_hdr) (a : answer) : sg_hdr :=
  SgHdr (interface_id q) (dxfer_direction q) (cmd_len q) (mx_sb_len q) (dxfer_len q)
    (dxferp q) (cmdp q) (sbp q) (hdr_timeout q) (hdr_flags q) (pack_id q)
    (a_status a) (a_host a) (a_driver a)
    (dxfer_len q - Z.min (dxfer_len q) (zlen (a_data a))).
Definition completed_mem (q : sg_hdr) (a : answer) (h : heap) : heap :=
  poke (sbp q) (Z.to_nat (mx_sb_len q)) (a_sense a)
    (if dxfer_direction q =? -3 then poke (dxferp q) (Z.to_nat (dxfer_len q)) (a_data a) h else h).

Section Honest.
Context {T : Type} (tgt : target T).
Definition honest_write (q : sg_hdr) (h : heap) (d : sg_state T) : heap * sg_state T * result Z :=
  let (t, a) := tgt (fst d) (described_cdb q h) (described_data q h) in
  (h, (t, snd d ++ [(q, a)]), Ok 88).
Definition honest_read (h : heap) (d : sg_state T) : heap * sg_state T * result (option sg_hdr) :=
  match snd d with
  | [] => (h, d, Err (EIO 0))                     (* nothing to read: timeout *)
  | (q, a) :: rest => (completed_mem q a h, (fst d, rest), Ok (Some (completed_hdr q a)))
  end.
Definition honest_ioctl (q : sg_hdr) (h : heap) (d : sg_state T) : heap * sg_state T * result sg_hdr :=
  let (t, a) := tgt (fst d) (described_cdb q h) (described_data q h) in
  (completed_mem q a h, (t, snd d), Ok (completed_hdr q a)).
Definition honest : sg_driver (sg_state T) := SgDriver honest_write honest_read honest_ioctl.
End Honest.

(** What the user of an executer should get for an answer (as the code defines it for
    host status 7 and 24, see C21). *)
Definition is_check_condition (status driver : Z) : bool := Z.testbit status 1 || Z.testbit driver 3.
Definition is_clean (status host driver : Z) : bool :=
  (status =? 0) && (host =? 0) && (driver mod 16 =? 0).
Definition data_wanted (c : scsi_command) (data : bytes) : option bytes :=
  match c with
  | ReadCmd _ n => if 0 <? n then Some (pad (Z.to_nat n) data) else None
  | WriteCmd _ _ => None
  end.
Definition linux_error (status host : Z) : exn :=
  if status =? 0 then EAsiSCSI
  else if host =? 7 then EAsiQueueFull
  else if host =? 24 then EAsiReservationConflict
  else EAsiSCSI.
Definition linux_expected (c : scsi_command) (a : answer) : resp :=
  if is_check_condition (a_status a) (a_driver a)
  then RespExn (EAsiCheckCondition (pad 255 (a_sense a)))
  else if is_clean (a_status a) (a_host a) (a_driver a)
  then RespData (data_wanted c (a_data a))
  else RespExn (linux_error (a_status a) (a_host a)).

(** The data-out of a command. *)
Definition data_out (c : scsi_command) : bytes :=
  match c with ReadCmd _ _ => [] | WriteCmd _ d => d end.
(** Commands that the request block can describe. *)
Definition fits (c : scsi_command) : Prop :=
  zlen (command_of c) < 256 /\
  match c with ReadCmd _ n => n < 2 ^ 32 | WriteCmd _ d => zlen d < 2 ^ 32 end.

(** Exceptions that are AsiException instances (errors.py). *)
Definition asi_exception (e : exn) : Prop :=
  match e with
  | EAsiGeneric | EAsiOS | EAsiInternal | EAsiSCSI | EAsiQueueFull | EAsiReservationConflict
  | EAsiCheckCondition _ => True
  | _ => False
  end.

(** A request whose data buffer is still in memory. *)
Definition intact (h : heap) (r : sgio) : Prop :=
  (forall a, data_buffer r = Some a -> (a < length h)%nat) /\
  (dxfer_direction (hdr r) = -3 -> data_buffer r <> None).
