(** Property C94: commands constructed without optional arguments. *)
From Coq Require Import String ZArith List Bool Lia.
From Verif Require Import Base Gen SpecGen Executer OsCommon OsLinux OsWin32 Instruct Command SpecDevice SpecCdb SpecSg SpecDrivers SpecExecute SpecPortable SpecReserve
  SpecAdaptive SpecLayout SpecPages SpecVpd Pages Defaults SpecDefaults DefaultFacts.
From Verif Require PropAdaptive DiskFacts.
Import ListNotations.
Local Open Scope string_scope.
Local Open Scope list_scope.
Local Open Scope Z_scope.

(** What every such object asks of the device, see [short_asks]. *)
Theorem C94_requests : forall c, short_asks c (do o <- construct c; request o).
Proof. exact short_spec. Qed.
(** The object is the one with the arguments written out, so that all theorems on that apply. *)
Theorem C94_spelled_out : forall c, construct c = constructed (spelled_out c).
Proof. exact construct_same. Qed.

(** READ KEYS: all the keys up to 64 of them, and None beyond. *)
Theorem C94_read_keys : forall T (sys : system T) tgt g keys t s, one_of_four sys -> idle sys s t -> reports_keys tgt g keys ->
  exists s' t', sync_wait_ends (coroutine (os_of sys tgt) (run_short (SPrIn 0))) s s'
      (shown (Ok (keys_object g (zlen keys) (if zlen keys <=? 64 then PList (map PInt keys) else PNone)))) /\ idle sys s' t'.
Proof. exact keys_default. Qed.
(** REPORT LUNS: all the LUNs up to 2047 of them, and an exception beyond. *)
Theorem C94_report_luns : forall T (sys : system T) tgt numbers t s, one_of_four sys -> idle sys s t ->
  Forall (fun n => 0 <= n < 16384) numbers -> reports_luns tgt (map (fun n => n * 2 ^ 48) numbers) -> zlen numbers <= 2047 ->
  exists s' t', sync_wait_ends (coroutine (os_of sys tgt) (run_short SReportLuns)) s s'
      (shown (Ok (luns_object (map (fun n => n * 2 ^ 48) numbers) numbers))) /\ idle sys s' t'.
Proof. exact luns_default. Qed.
Theorem C94_report_many_luns : forall T (sys : system T) tgt luns t s, one_of_four sys -> idle sys s t -> reports_luns tgt luns -> 2047 < zlen luns ->
  exists s' t', sync_wait_ends (coroutine (os_of sys tgt) (run_short SReportLuns)) s s' (Threw EInstruct) /\ idle sys s' t'.
Proof. exact luns_default_many. Qed.
(** Standard INQUIRY: the first 36 bytes, whatever the device has. *)
Theorem C94_inquiry : forall T (sys : system T) tgt data t s, one_of_four sys -> idle sys s t ->
  reports_inquiry tgt data -> (36 <= length data)%nat ->
  exists s' t', sync_wait_ends (coroutine (os_of sys tgt) (run_short SStandardInquiry)) s s'
      (shown (Ok (basic_inquiry_object data))) /\ idle sys s' t'.
Proof. exact inquiry_run. Qed.
(** READ from a disk with blocks of 512 bytes or more: 512 bytes for each block. *)
Theorem C94_read : forall T (sys : system T) tgt content bs capacity c lba n t s, one_of_four sys -> idle sys s t ->
  block_device tgt content bs capacity -> 512 <= bs -> short_read c lba n -> arguments_fit (spelled_out c) -> 1 <= n ->
  512 * n < 2 ^ 32 -> lba + n <= capacity ->
  exists s' t', sync_wait_ends (coroutine (os_of sys tgt) (run_short c)) s s'
      (shown (Ok (PBytes (firstn (Z.to_nat (512 * n)) (blocks (content t) lba (Z.to_nat n)))))) /\ idle sys s' t' /\
    forall k, 0 <= k < capacity -> content t' k = content t k.
Proof. exact read_default. Qed.

(** ** Examples *)

(** WRITE (10) of 1024 bytes writes two blocks, READ (6) of 0 blocks reads 256, and REGISTER AND MOVE is refused. *)
Example C94_requests_example :
  (exists cdb, (do o <- construct (SWrite10 7 (repeat 1 1024)); request o) = Ok (WriteCmd cdb (repeat 1 1024)) /\
     interpret cdb = Some (OpWrite 7 2 no_flags)) /\
  (exists cdb, (do o <- construct (SRead6 7 0); request o) = Ok (ReadCmd cdb 131072) /\ interpret cdb = Some (OpRead 7 256 no_flags)) /\
  (exists e, construct (SPrOut 7) = Err e).
Proof. split; [|split]; eexists; try (split; [vm_compute; reflexivity|]); vm_compute; reflexivity. Qed.
Example C94_spelled_out_example : exists o, construct SRtpg = Ok o /\ attr "allocation_length" (o_attrs o) = 16384.
Proof. eexists. split; reflexivity. Qed.
(** The systems and devices of C88 meet the hypotheses; so does this one, with 65 keys. *)
Definition keys65 : list Z := map Z.of_nat (seq 1 65).
Definition keys_device : target nat := fun t cdb _ => (t, match interpret cdb with
  | Some (OpPrIn 0 alloc) => good (firstn (Z.to_nat alloc) (keys_data 5 keys65))
  | Some (OpReportLuns _ alloc) => good (firstn (Z.to_nat alloc) (luns_data [0; 3 * 2 ^ 48]))
  | Some (OpInquiry 0 0 alloc) => good (firstn (Z.to_nat alloc) ([0; 0; 6; 2; 57; 0; 0; 0] ++ repeat 65 28 ++ repeat 1 26))
  | _ => good [] end).
Example C94_read_keys_example : reports_keys keys_device 5 keys65 /\ zlen keys65 = 65 /\
  one_of_four (linux_system nat 3000) /\ idle (linux_system nat 3000) PropAdaptive.example_linux 0%nat.
Proof.
  split; [|split; [reflexivity|]].
  - constructor; [split; [lia|]; split; [|reflexivity]; apply Forall_forall; intros x I; apply in_map_iff in I; destruct I as (k & <- & I); apply in_seq in I; lia|].
    intros t cdb data alloc I. eexists. unfold keys_device. rewrite I. reflexivity.
  - destruct PropAdaptive.C88_systems_example as (A & B & _). split; assumption.
Qed.
(** READ KEYS gives None instead of the 65 keys. *)
Example C94_missing_keys_refuted :
  match sync_wait 200 (coroutine (os_of (linux_system nat 3000) keys_device) (run_short (SPrIn 0))) PropAdaptive.example_linux with
  | Some (s, out) => out = shown (Ok (keys_object 5 65 PNone))
  | None => False
  end.
Proof. vm_compute. reflexivity. Qed.
Example C94_report_luns_example : reports_luns keys_device (map (fun n => n * 2 ^ 48) [0; 3]) /\ Forall (fun n => 0 <= n < 16384) [0; 3].
Proof.
  split; [|repeat constructor; lia]. constructor; [split; [repeat constructor; lia|reflexivity]|].
  intros t cdb data select alloc I. eexists. unfold keys_device. rewrite I. reflexivity.
Qed.
(** [PropAdaptive.C88_short_luns_example] is a device with 2048 LUNs. *)
Example C94_report_many_luns_example : 2047 < zlen (repeat 0 2048).
Proof. unfold zlen. rewrite repeat_length. reflexivity. Qed.
(** The device has an extension; the object for it has no content. *)
Example C94_inquiry_example : let data := [0; 0; 6; 2; 57; 0; 0; 0] ++ repeat 65 28 ++ repeat 1 26 in
  reports_inquiry keys_device data /\ length data = 62%nat /\
  exists l x, basic_inquiry_object data = PObj "StandardInquiryDataBuffer" l /\ lookup "version" l = Some (PInt 6) /\
    lookup "additional_length" l = Some (PInt 57) /\ lookup "product_identification" l = Some (PBytes (repeat 65 16)) /\
    lookup "extended" l = Some (PObj "StandardInquiryExtendedDataBuffer" x) /\ lookup "version_descriptors" x = Some PNone.
Proof.
  cbv zeta. split; [split|split; [reflexivity|]].
  - unfold bytes_ok. repeat constructor; unfold byte_ok; lia.
  - intros t cdb d alloc I. eexists. unfold keys_device. rewrite I. reflexivity.
  - do 2 eexists. repeat split; reflexivity.
Qed.
Example C94_read_example : block_device (DiskFacts.ram_disk 4096) (DiskFacts.ram_content 4096) 4096 100 /\ short_read (SRead10 3 8) 3 8 /\
  arguments_fit (spelled_out (SRead10 3 8)).
Proof.
  split; [apply DiskFacts.ram_conforms; lia|]. split; [split; reflexivity|]. cbn. repeat split; try lia. repeat constructor; cbn; lia.
Qed.
(** Eight blocks of 4096 bytes come back as 4096 bytes, the content of the first. *)
Theorem C94_large_blocks_refuted : forall T (sys : system T) s t, one_of_four sys -> idle sys s t ->
  forall tgt content capacity lba, block_device tgt content 4096 capacity -> 0 <= lba < 2 ^ 32 -> lba + 8 <= capacity ->
  exists s' t', sync_wait_ends (coroutine (os_of sys tgt) (run_short (SRead10 lba 8))) s s' (shown (Ok (PBytes (content t lba)))) /\ idle sys s' t'.
Proof.
  intros T sys s t F Hi tgt content capacity lba Dev L C.
  destruct (read_default _ sys tgt content 4096 capacity (SRead10 lba 8) lba 8 t s F Hi Dev) as (s' & t' & E & I & _); try lia.
  - split; reflexivity.
  - cbn. repeat split; try lia. repeat constructor; cbn; lia.
  - exists s', t'. split; [|exact I]. replace (content t lba) with (firstn (Z.to_nat (512 * 8)) (blocks (content t) lba (Z.to_nat 8))); [exact E|].
    pose proof (bd_block _ _ _ _ Dev t lba ltac:(lia)) as B. change (Z.to_nat 8) with 8%nat. cbn [blocks]. rewrite firstn_app, firstn_all2 by (unfold zlen in B; lia).
    replace (Z.to_nat (512 * 8) - length (content t lba))%nat with 0%nat by (unfold zlen in B; lia). apply app_nil_r.
Qed.

(** All theorems at once: what is printed holds for each of them. *)
Definition all_theorems := (@C94_requests, @C94_spelled_out, @C94_read_keys, @C94_report_luns, @C94_report_many_luns, @C94_inquiry,
  @C94_read, @C94_large_blocks_refuted).
Print Assumptions all_theorems.
