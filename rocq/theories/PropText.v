(** C79: what the texts of the errors tell about the statuses. *)
From Coq Require Import String ZArith List Bool Lia.
From Verif Require Import Base Executer OsCommon OsLinux OsSolaris OsAix OsWin32 ErrorText SpecText TextFacts.
Import ListNotations.
Local Open Scope string_scope.
Local Open Scope Z_scope.

(** A block whose other fields do not matter here. *)
Definition a_response (st host drv : Z) : sg_hdr := SgHdr 83 (-1) 6 255 0 None None None 0 1 0 st host drv 0.
Definition a_uscsi (st rq : Z) : uscsi_hdr := UscsiHdr 0 st 0 None None 0 6 255 rq None.
Definition a_passthru (validity bus : Z) : sc_hdr := ScHdr 2 validity bus 0 1 6 0 255 30 0 None None [].

(** Linux: exactly the responses that become an AsiSCSIError have a text. *)
Theorem C79_linux_has_text : forall D sense_of (s : executer sgio (linux_world D)) r,
  linux_handle sense_of (Some r) s = Ok (RespExn EAsiSCSI, pack_id r) <-> exists t, linux_text r = Some t.
Proof. exact linux_text_iff. Qed.

(** If the SCSI status is not zero, or it is the host status that is not zero, the text has all
    three statuses in the right places, with the right names. *)
Theorem C79_linux_tells : forall r t, 0 <= status r -> 0 <= host_status r ->
  linux_text r = Some t -> status r <> 0 \/ driver_status r mod 16 = 0 ->
  hex_after "zero: " t = Some (status r) /\ name_after "zero: " t = Some (sam_status (status r)) /\
  hex_after "(driver status: " t = Some (driver_status r mod 16) /\
  name_after "(driver status: " t = Some (linux_driver (driver_status r mod 16)) /\
  hex_after "host status: " t = Some (host_status r) /\
  name_after "host status: " t = Some (linux_host (host_status r)).
Proof. exact linux_text_tells. Qed.
Example C79_linux_tells_ex :
  linux_text (a_response 8 5 1) =
  Some "SCSI response status is not zero: SCSI_STATUS_BUSY 0x08(driver status: SG_ERR_DRIVER_BUSY 0x01, host status: SG_ERR_DID_ABORT 0x05)"
  /\ linux_text (a_response 0 258 0) =
  Some "SCSI host status is not zero: SCSI_STATUS_GOOD 0x00(driver status: SG_ERR_DRIVER_OK 0x00, host status:  0x102)".
Proof. split; vm_compute; reflexivity. Qed.

(** If only the driver complains, what is called the driver's status is the SCSI status, always
    "good", and what is called the host's is the driver's; the host's is not told. *)
Theorem C79_linux_driver_text : forall r t,
  linux_text r = Some t -> status r = 0 -> driver_status r mod 16 <> 0 ->
  hex_after "zero: " t = Some 0 /\ name_after "zero: " t = Some "SCSI_STATUS_GOOD" /\
  hex_after "host status: " t = Some (driver_status r mod 16) /\
  name_after "host status: " t = Some (linux_driver (driver_status r mod 16)).
Proof. exact linux_driver_text. Qed.
Theorem C79_linux_host_status_refuted :
  ~ (forall r t, 0 <= status r -> 0 <= host_status r -> linux_text r = Some t ->
       hex_after "host status: " t = Some (host_status r)).
Proof.
  intros H. specialize (H (a_response 0 1 6) _ ltac:(cbn; lia) ltac:(cbn; lia) eq_refl).
  vm_compute in H. discriminate H.
Qed.
Example C79_linux_driver_text_ex :
  linux_text (a_response 0 1 6) = linux_text (a_response 0 3 6) /\
  linux_text (a_response 0 1 6) =
  Some "SCSI driver response status is not zero: SCSI_STATUS_GOOD 0x00 (host status: SG_ERR_DRIVER_TIMEOUT 0x06)".
Proof. split; vm_compute; reflexivity. Qed.

(** Solaris: the status is told, the reason is always given as zero. *)
Theorem C79_solaris_has_text : forall D sense_of (s : executer scsicmd (solaris_world D)) r,
  solaris_handle sense_of r s = Ok (RespExn EAsiSCSI, 0) <-> exists t, solaris_text r = Some t.
Proof. exact solaris_text_iff. Qed.
Theorem C79_solaris_tells : forall r t, 0 <= uscsi_rqstatus r -> solaris_text r = Some t ->
  (uscsi_status r mod 256 <> 0 ->
     hex_after "zero: " t = Some (uscsi_status r mod 256) /\ hex_after "reason: " t = Some 0) /\
  (uscsi_status r mod 256 = 0 -> hex_after "zero: " t = Some (uscsi_rqstatus r)).
Proof. exact solaris_text_tells. Qed.
Example C79_solaris_tells_ex :
  solaris_text (a_uscsi 24 0) = Some "SCSI response status is not zero: 0x18 (SCSI reason: 0x00)" /\
  solaris_text (a_uscsi 0 8) = Some "SCSI request commmand status is not zero: 0x08".
Proof. split; vm_compute; reflexivity. Qed.

(** AIX: of the SCSI status only the bits 1 to 4 are told. *)
Theorem C79_aix_has_text : forall D sense_of (s : executer passthru (aix_world D)) r adapter,
  aix_handle sense_of r s = Ok (RespExn EAsiSCSI, 0) <-> exists t, aix_text r adapter = Some t.
Proof. exact aix_text_iff. Qed.
Theorem C79_aix_tells : forall r adapter t, 0 <= status_validity r -> 0 <= adapter ->
  aix_text r adapter = Some t -> starts (aix_message (status_validity r)) t = true /\
  hex_after ", validity=" t = Some (status_validity r) /\
  hex_after ", scsi_bus_status=" t = Some (Z.land (scsi_bus_status r) 30) /\
  name_after ", scsi_bus_status=" t = Some (sam_status (Z.land (scsi_bus_status r) 30)) /\
  hex_after ", adapter_status=" t = Some adapter /\
  name_after ", validity=" t = Some (aix_validity (status_validity r)) /\
  name_after ", adapter_status=" t = Some (aix_adapter adapter).
Proof. exact aix_text_tells. Qed.
(** TASK ABORTED is reported as good, TASK SET FULL as busy. *)
Theorem C79_aix_status_refuted : exists r1 r2 t1 t2,
  scsi_bus_status r1 = 64 /\ aix_text r1 0 = Some t1 /\
  name_after ", scsi_bus_status=" t1 = Some "SCSI_STATUS_GOOD" /\
  scsi_bus_status r2 = 40 /\ aix_text r2 0 = Some t2 /\
  name_after ", scsi_bus_status=" t2 = Some "SCSI_STATUS_BUSY".
Proof.
  exists (a_passthru 1 64), (a_passthru 1 40).
  do 2 eexists. split; [reflexivity|]. split; [reflexivity|]. split; [vm_compute; reflexivity|].
  split; [reflexivity|]. split; [reflexivity|]. vm_compute; reflexivity.
Qed.
Example C79_aix_tells_ex :
  aix_text (a_passthru 1 24) 0 =
  Some "SCSI bus response status is not zero, validity=SC_SCSI_ERROR 0x01, scsi_bus_status=SCSI_STATUS_RESERVATION_CONFLICT 0x18, adapter_status= 0x00"
  /\ aix_text (a_passthru 2 0) 3 =
  Some "SCSI adapter response status is not zero, validity=SC_ADAPTER_ERROR 0x02, scsi_bus_status=SCSI_STATUS_GOOD 0x00, adapter_status=SCSI_CMD_TIMEOUT 0x03".
Proof. split; vm_compute; reflexivity. Qed.

(** Windows: the status is told, in decimal. *)
Theorem C79_win_has_text : forall D sense_of (w : win_world D) r q,
  nth_error (w_objs w) (spt_obj r) = Some q ->
  (win_handle sense_of r w = Ok (RespExn EAsiSCSI, packet_id r) <-> exists t, win_text (ScsiStatus q) = Some t).
Proof. exact win_text_iff. Qed.
Theorem C79_win_tells : forall z t, 0 <= z -> win_text z = Some t -> decimal_after "zero: " t = Some z.
Proof. exact win_text_tells. Qed.
Example C79_win_tells_ex : win_text 24 = Some "SCSI response status is not zero: 24".
Proof. vm_compute; reflexivity. Qed.

Print Assumptions C79_linux_has_text.
Print Assumptions C79_linux_tells.
Print Assumptions C79_linux_driver_text.
Print Assumptions C79_linux_host_status_refuted.
Print Assumptions C79_solaris_has_text.
Print Assumptions C79_solaris_tells.
Print Assumptions C79_aix_has_text.
Print Assumptions C79_aix_tells.
Print Assumptions C79_aix_status_refuted.
Print Assumptions C79_win_has_text.
Print Assumptions C79_win_tells.
