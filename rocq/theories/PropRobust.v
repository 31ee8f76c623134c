(** Arbitrary data from the device: C76. *)
From Coq Require Import String ZArith List Bool Lia.
From Verif Require Import Base OsCommon Instruct Command CdbBlock CdbPrimary Pages Ses Sense SpecRobust RobustFacts.
Import ListNotations.
Local Open Scope string_scope.
Local Open Scope Z_scope.

(** INQUIRY: every page code, every data. *)
Theorem C76_vpd_pages : forall code d, parses_anything (vpd_class code) d (yields (get_vpd_page code) d).
Proof. exact vpd_command. Qed.
Theorem C76_standard_inquiry : forall code evpd alloc d,
  parses_anything "StandardInquiryDataBuffer" d (yields (standard_inquiry_command code evpd alloc) d).
Proof. exact standard_command. Qed.
Example C76_vpd_pages_example :
  yields (get_vpd_page 131) (Some [0; 131; 0; 9; 0; 3; 0; 5; 80; 1; 2; 3; 4]) = Err EInstruct /\
  yields (get_vpd_page 131) (Some [0; 131; 255; 255]) =
    Ok (PObj "DeviceIdentificationVPDPageBuffer"
          [("peripheral_device", PObj "PeripheralDeviceDataBuffer" [("type", PInt 0); ("qualifier", PInt 0)]);
           ("page_code", PInt 131); ("page_length", PInt 65535); ("designators_list", PList [])]) /\
  yields (get_vpd_page 131) None = Err EType.
Proof. repeat split; vm_compute; reflexivity. Qed.
Example C76_standard_inquiry_example :
  yields (standard_inquiry_command 0 0 255) (Some [0; 0; 6]) = Err EInstruct /\
  exists l, yields (standard_inquiry_command 0 0 255) (Some (repeat 255 9)) = Ok (PObj "StandardInquiryDataBuffer" l).
Proof. split; [vm_compute; reflexivity|]. eexists. vm_compute. reflexivity. Qed.

(** Diagnostic pages; the configuration page given to the classes that need one is the
    result of the library's own parsing, of any data. *)
Theorem C76_ses_pages : forall lib code args o d, get_ses_page lib code args = Ok o ->
  (forall n b, library_code (negative_slice lib n b)) -> plain_keyword lib = Ok tt ->
  (forall conf, In conf args -> exists b, get_ses_page_data lib 1 PNone b = Ok conf) ->
  parses_anything (ses_class code) d (yields (get_ses_page lib code args) d).
Proof. exact ses_command. Qed.
Definition ex76_library : library := Library (fun _ _ => Err EInstruct) (Ok tt).
Definition ex76_conf : bytes := ([1; 0; 0; 52; 0; 0; 0; 0] ++ [17; 0; 1; 36] ++ repeat 32 36 ++ [2; 1; 0; 0])%list.
Example C76_ses_pages_example : exists conf o,
  get_ses_page_data ex76_library 1 PNone ex76_conf = Ok conf /\ get_ses_page ex76_library 2 [conf] = Ok o /\
  (forall n b, library_code (negative_slice ex76_library n b)) /\
  yields (get_ses_page ex76_library 2 [conf]) (Some [2; 0; 0; 4; 0; 0; 0; 0]) = Err EInstruct /\
  exists l, yields (get_ses_page ex76_library 2 [conf]) (Some (repeat 1 16)) = Ok (PObj "EnclosureStatusDiagnosticPagesData" l).
Proof.
  do 2 eexists. split; [vm_compute; reflexivity|]. split; [reflexivity|].
  split; [right; reflexivity|]. split; [vm_compute; reflexivity|]. eexists. vm_compute. reflexivity.
Qed.

(** The other commands whose answer is parsed. *)
Theorem C76_target_port_groups : forall format alloc o d, rtpg format alloc = Ok o ->
  parses_anything (if format =? 0 then "TargetPortGroupLengthOnlyResponse" else "TargetPortGroupExtendedResponse") d
    (yields (rtpg format alloc) d).
Proof. exact rtpg_command. Qed.
Theorem C76_receive_copy : forall alloc ctl d,
  parses_anything "ReceiveCopyOperatingParametersResponse" d (yields (receive_copy alloc ctl) d).
Proof. exact receive_copy_command. Qed.
Theorem C76_read_capacity : forall lba pmi d,
  parses_anything "ReportReadCapacityData10" d (yields (read_capacity10 lba pmi) d) /\
  parses_anything "ReportReadCapacityData16" d (yields (read_capacity16 lba pmi) d).
Proof. exact read_capacity_command. Qed.
(** A service action the library does not know is noticed only when the answer is there. *)
Theorem C76_persistent_reserve_in : forall sa alloc o d, pr_in sa alloc = Ok o ->
  (0 <= sa <= 3 -> parses_anything (pr_in_class sa) d (yields (pr_in sa alloc) d)) /\
  (~ 0 <= sa <= 3 -> yields (pr_in sa alloc) d = Err EAssertion).
Proof. exact pr_in_command. Qed.
Theorem C76_report_luns : forall select alloc allow d, 16 <= alloc ->
  let r := yields (report_luns select alloc allow) d in
  object_or_refusal "ReportLunsData" r \/
  allow = false /\ exists x, r = Err (EUnsupportedLunAddressing x) \/ r = Err (EUnsupportedLunMethod x).
Proof. exact report_luns_command. Qed.
Theorem C76_report_luns_short : forall select alloc allow d, alloc < 16 ->
  yields (report_luns select alloc allow) d =
    if match d with None => 0 | Some b => zlen b end =? alloc
    then Ok (match d with None => PNone | Some b => PBytes b end) else Err EAssertion.
Proof. exact report_luns_short_command. Qed.
Example C76_target_port_groups_example : exists o,
  rtpg 0 4096 = Ok o /\ yields (rtpg 0 4096) (Some [0; 0; 0; 100; 1; 2; 3]) = Err EInstruct /\
  (* a length that is read as a negative number *)
  yields (rtpg 0 4096) (Some [255; 255; 255; 255; 1; 2; 3]) =
    Ok (PObj "TargetPortGroupLengthOnlyResponse" [("data_length", PInt (-1)); ("descriptor_list", PList [])]).
Proof. eexists. split; [reflexivity|]. split; vm_compute; reflexivity. Qed.
Example C76_receive_copy_example :
  yields (receive_copy 520 0) (Some (repeat 9 43)) = Err EInstruct /\
  exists l, yields (receive_copy 520 0) (Some (repeat 9 44)) = Ok (PObj "ReceiveCopyOperatingParametersResponse" l).
Proof. split; [vm_compute; reflexivity|]. eexists. vm_compute. reflexivity. Qed.
Example C76_read_capacity_example :
  yields (read_capacity10 0 0) (Some (repeat 1 7)) = Err EInstruct /\
  exists l, yields (read_capacity16 0 0) (Some (repeat 1 40)) = Ok (PObj "ReportReadCapacityData16" l).
Proof. split; [vm_compute; reflexivity|]. eexists. vm_compute. reflexivity. Qed.
Example C76_persistent_reserve_in_example : exists o,
  pr_in 3 256 = Ok o /\ yields (pr_in 3 256) (Some ([0; 0; 0; 1; 0; 0; 0; 24] ++ repeat 0 23))%list = Err EInstruct /\
  yields (pr_in 4 256) (Some []) = Err EAssertion /\
  exists l, yields (pr_in 3 256) (Some ([0; 0; 0; 1; 0; 0; 0; 48] ++ repeat 0 23 ++ [24] ++ repeat 0 24))%list =
    Ok (PObj "PersistentReserveInReadFullStatusResponse" l).
Proof. eexists. split; [reflexivity|]. split; [vm_compute; reflexivity|]. split; [vm_compute; reflexivity|]. eexists. vm_compute. reflexivity. Qed.
Example C76_report_luns_example :
  yields (report_luns 0 4096 false) (Some [0; 0; 0; 12; 0; 0; 0; 0; 0; 0]) = Err EInstruct /\
  yields (report_luns 0 4096 false) (Some [0; 0; 0; 8; 0; 0; 0; 0; 64; 1; 0; 0; 0; 0; 0; 0]) =
    Err (EUnsupportedLunMethod 4611967493404098560).
Proof. split; vm_compute; reflexivity. Qed.
Example C76_report_luns_short_example :
  yields (report_luns 0 8 false) (Some (repeat 5 8)) = Ok (PBytes (repeat 5 8)) /\
  yields (report_luns 0 8 false) (Some (repeat 5 7)) = Err EAssertion.
Proof. split; vm_compute; reflexivity. Qed.

(** Sense data: what is neither fixed nor descriptor format is None. *)
Theorem C76_sense : forall buf, sense_object buf = Ok PNone \/
  object_or_refusal "SCSISenseDataFixed" (sense_object buf) \/
  object_or_refusal "SCSISenseDataDescriptorBased" (sense_object buf).
Proof. exact sense_answers. Qed.
Example C76_sense_example :
  sense_object [] = Err EInstruct /\ sense_object [112; 0; 5] = Err EInstruct /\ sense_object [127; 0; 5] = Ok PNone /\
  sense_object [114; 5; 36; 0; 0; 0; 3; 9; 5; 0] = Err EInstruct.
Proof. repeat split; vm_compute; reflexivity. Qed.

Print Assumptions C76_vpd_pages.
Print Assumptions C76_standard_inquiry.
Print Assumptions C76_ses_pages.
Print Assumptions C76_target_port_groups.
Print Assumptions C76_receive_copy.
Print Assumptions C76_read_capacity.
Print Assumptions C76_persistent_reserve_in.
Print Assumptions C76_report_luns.
Print Assumptions C76_report_luns_short.
Print Assumptions C76_sense.
