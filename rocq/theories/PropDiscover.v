(** Property C95: coroutines that discover the VPD pages and the SES pages of a device. *)
From Coq Require Import String ZArith List Bool Lia.
From Verif Require Import Base Gen SpecGen Executer OsCommon OsLinux OsWin32 Instruct Command SpecDevice SpecCdb SpecSg SpecDrivers SpecExecute SpecPortable SpecReserve
  SpecAdaptive SpecLayout SpecPages SpecVpd Pages SpecSes Ses SpecDiscover DiscoverFacts SpecAta.
From Verif Require PropAdaptive PropSes PropAta.
Import ListNotations.
Local Open Scope string_scope.
Local Open Scope list_scope.
Local Open Scope Z_scope.

(** The objects are those of get_vpd_page. *)
Theorem C95_commands : forall code, constructed (vpd_command code) = get_vpd_page code.
Proof. exact vpd_same. Qed.

(** On every system the coroutine collects all the pages that the device lists, or raises what the
    first page that cannot be read raises. *)
Theorem C95_all_pages : forall T (sys : system T) tgt type qualifier codes page res t s, one_of_four sys -> idle sys s t ->
  reports_pages tgt codes page -> below 5 type -> below 3 qualifier -> zlen codes <= 248 -> In 0 codes ->
  page 0 = page_00 type qualifier codes -> res 0 = Ok (page_00_object type qualifier codes) ->
  (forall code, In code codes -> 0 < zlen (page code) <= fst (vpd_page code)) ->
  (forall code, In code codes -> reads_as code (page code) (res code)) ->
  exists s' t', sync_wait_ends (coroutine (os_of sys tgt) all_pages) s s' (shown (listed (collected codes res))) /\ idle sys s' t'.
Proof. exact all_pages_run. Qed.

(** What pages read as, whatever number of zeros a system appends. *)
Theorem C95_page_00 : forall type qualifier codes, below 5 type -> below 3 qualifier -> Forall (below 8) codes -> zlen codes <= 255 ->
  reads_as 0 (page_00 type qualifier codes) (Ok (page_00_object type qualifier codes)).
Proof. exact page_00_reads. Qed.
Theorem C95_page_80 : forall type qualifier serial, below 5 type -> below 3 qualifier -> bytes_ok serial -> zlen serial <= 255 ->
  reads_as 128 (page_80 type qualifier serial) (Ok (page_80_object type qualifier serial)).
Proof. exact page_80_reads. Qed.
Theorem C95_page_83 : forall type qualifier l, below 5 type -> below 3 qualifier -> Forall designator_ok l -> zlen (flat_map descriptor_bytes l) < 65536 ->
  reads_as 131 (page_83 type qualifier (flat_map descriptor_bytes l)) (Ok (page_83_object type qualifier (zlen (flat_map descriptor_bytes l)) l)).
Proof. exact page_83_reads. Qed.
Theorem C95_block_limits : forall page, bytes_ok page -> (44 <= length page)%nat ->
  reads_as 176 page (Ok (PObj "BlockLimitsVPDPageBuffer" (peripheral_value page :: layout_values block_limits_layout page))).
Proof. exact limits_reads. Qed.
(** (The data of IDENTIFY DEVICE that the library shows end with byte 151; its model number stops at word 45, see C78.) *)
Theorem C95_ata_information : forall page, bytes_ok page -> (152 <= length page)%nat -> reads_as 137 page (Ok (ata_object 46 page)).
Proof. exact ata_reads. Qed.
Theorem C95_veritas : forall page, bytes_ok page -> (6 <= length page)%nat ->
  reads_as 192 page (Ok (PObj "VeritasVPDPageBuffer" (peripheral_value page :: layout_values veritas_layout page))).
Proof. exact veritas_reads. Qed.
(** (A logical block provisioning page with a provisioning group descriptor; for one without see below.) *)
Theorem C95_provisioned : forall head d, bytes_ok head -> length head = 8%nat -> designator_ok d ->
  reads_as 178 (head ++ descriptor_bytes d) (Ok (provisioning_object head (designator_object d))).
Proof. exact provisioned_reads. Qed.
Theorem C95_other_page : forall type qualifier code data, below 5 type -> below 3 qualifier -> below 8 code -> bytes_ok data -> zlen data < 65536 ->
  known_page code known_vpd_pages = None ->
  reads_as code (other_page type qualifier code data) (Ok (other_page_object type qualifier code data)).
Proof. exact other_reads. Qed.

(** A list of 249 or more pages does not fit into the allocation length and cannot be read. *)
Theorem C95_too_many_pages : forall T (sys : system T) tgt type qualifier codes t s, one_of_four sys -> idle sys s t ->
  reports_pages tgt [0] (fun _ => page_00 type qualifier codes) -> below 5 type -> below 3 qualifier -> Forall (below 8) codes -> 248 < zlen codes <= 255 ->
  exists s' t', sync_wait_ends (coroutine (os_of sys tgt) (Do (vpd_command 0) finish)) s s' (shown (Err EInstruct)) /\ idle sys s' t'.
Proof. exact too_many_pages_run. Qed.

(** Nor does a device identification page whose descriptors take more than 248 bytes.  If a descriptor ends
    there, the others are missing without any exception (page_length still counts them); if the cut is in the
    header of a descriptor, nothing can be read. *)
Theorem C95_long_identification : forall T (sys : system T) tgt type qualifier l more t s, one_of_four sys -> idle sys s t ->
  reports_pages tgt [131] (fun _ => page_83 type qualifier (flat_map descriptor_bytes l ++ more)) ->
  below 5 type -> below 3 qualifier -> Forall designator_ok l -> bytes_ok more ->
  245 <= zlen (flat_map descriptor_bytes l) <= 248 -> 248 < zlen (flat_map descriptor_bytes l ++ more) < 65536 ->
  exists s' t', sync_wait_ends (coroutine (os_of sys tgt) (Do (vpd_command 131) finish)) s s'
    (shown (if zlen (flat_map descriptor_bytes l) =? 248 then Ok (page_83_object type qualifier (zlen (flat_map descriptor_bytes l ++ more)) l)
            else Err EInstruct)) /\ idle sys s' t'.
Proof. exact long_identification_run. Qed.

(** A logical block provisioning page without a provisioning group descriptor: only Windows says so,
    the other systems show an empty vendor specific designator, made of the unused part of the buffer. *)
Theorem C95_provisioning : forall T (sys : system T) tgt page t s, one_of_four sys -> idle sys s t ->
  reports_pages tgt [178] (fun _ => page) -> bytes_ok page -> length page = 8%nat ->
  exists s' t', sync_wait_ends (coroutine (os_of sys tgt) (Do (vpd_command 178) finish)) s s'
    (shown (Ok (provisioning_object page (if pads sys then empty_designator else PNone)))) /\ idle sys s' t'.
Proof. exact provisioning_run. Qed.

(** The configuration of an enclosure. *)
Theorem C95_configuration : forall T (sys : system T) tgt lib page next gen l t s, one_of_four sys -> idle sys s t -> reports_diagnostics tgt page next ->
  page t 1 = configuration_page gen l -> moderate_configuration l -> 0 <= gen < 2 ^ 32 ->
  exists s', sync_wait_ends (coroutine (os_of sys tgt) (show_ses lib 1)) s s' (shown (Ok (whole_configuration gen l))) /\ idle sys s' (next t).
Proof. exact configuration_run. Qed.

(** Status and texts of the elements.  The configuration is read first; the elements are shown with
    the types that they had then, whatever the generation code of the second page. *)
Theorem C95_status : forall T (sys : system T) tgt lib page next cgen l flags gen gs t s, one_of_four sys -> idle sys s t -> reports_diagnostics tgt page next ->
  page t 1 = configuration_page cgen l -> moderate_configuration l -> 0 <= cgen < 2 ^ 32 ->
  page (next t) 2 = status_page flags gen gs -> map t_elements (all_types l) = map (fun g => t_elements (g_type g)) gs ->
  Forall (fun g => group_complete g /\ Forall (text_of_length 4) (g_overall g :: g_elements g)) gs ->
  is_byte flags -> 0 <= gen < 2 ^ 32 -> zlen (status_body gs) <= 65527 ->
  exists s', sync_wait_ends (coroutine (os_of sys tgt) (show_ses lib 2)) s s'
    (shown (Ok (status_page_object flags gen (zlen (status_body gs)) (map status_group_object (retyped (all_types l) gs))))) /\ idle sys s' (next (next t)).
Proof. exact status_run. Qed.
Theorem C95_descriptors : forall T (sys : system T) tgt lib page next cgen l gen gs t s, one_of_four sys -> idle sys s t -> reports_diagnostics tgt page next ->
  page t 1 = configuration_page cgen l -> moderate_configuration l -> 0 <= cgen < 2 ^ 32 ->
  page (next t) 7 = descriptor_page gen gs -> map t_elements (all_types l) = map (fun g => t_elements (g_type g)) gs ->
  Forall (fun g => group_complete g /\ Forall (fun t => bytes_ok t /\ zlen t < 32768) (g_overall g :: g_elements g)) gs ->
  0 <= gen < 2 ^ 32 -> zlen (descriptor_body gs) <= 65527 ->
  exists s', sync_wait_ends (coroutine (os_of sys tgt) (show_ses lib 7)) s s'
    (shown (Ok (descriptor_page_object gen (zlen (descriptor_body gs)) (map descriptor_group_object (retyped (all_types l) gs))))) /\ idle sys s' (next (next t)).
Proof. exact descriptors_run. Qed.
(** So if the configuration did not change, the elements are shown as they are. *)
Theorem C95_unchanged : forall l gs, map g_type gs = all_types l -> retyped (all_types l) gs = gs.
Proof. intros l gs <-. apply retyped_same. Qed.

(** ** Examples *)

Definition ex_codes : list Z := [0; 128; 131; 176; 199].
Definition ex_page (code : Z) : bytes :=
  if code =? 0 then page_00 0 0 ex_codes
  else if code =? 128 then page_80 0 0 [65; 66; 32]
  else if code =? 131 then page_83 0 0 []
  else if code =? 176 then [0; 176; 0; 60; 0; 8; 0; 1] ++ repeat 3 56
  else other_page 0 0 code [1; 2; 3].
Definition ex_device : target nat := fun t cdb _ => (Datatypes.S t, match interpret cdb with
  | Some (OpInquiry 1 code alloc) => good (firstn (Z.to_nat alloc) (ex_page code))
  | _ => good [] end).
Definition ex_result (code : Z) : result pyval := unpack (get_vpd_page_data code) (ex_page code).
Example C95_commands_example : exists o, constructed (vpd_command 199) = Ok o /\ attr "allocation_length" (o_attrs o) = 2048.
Proof. eexists. split; reflexivity. Qed.
Example C95_all_pages_example : reports_pages ex_device ex_codes ex_page /\ zlen ex_codes <= 248 /\ In 0 ex_codes /\
  ex_page 0 = page_00 0 0 ex_codes /\ ex_result 0 = Ok (page_00_object 0 0 ex_codes) /\
  (forall code, In code ex_codes -> 0 < zlen (ex_page code) <= fst (vpd_page code)) /\
  (forall code, In code ex_codes -> reads_as code (ex_page code) (ex_result code)) /\
  one_of_four (linux_system nat 3000) /\ idle (linux_system nat 3000) PropAdaptive.example_linux 0%nat.
Proof.
  split; [split; [repeat constructor; unfold below; lia|]|].
  { intros t cdb d code alloc _ I. eexists. unfold ex_device. rewrite I. reflexivity. }
  split; [vm_compute; discriminate|]. split; [left; reflexivity|]. split; [reflexivity|]. split; [vm_compute; reflexivity|]. split; [|split].
  - intros code [<-|[<-|[<-|[<-|[<-|[]]]]]]; vm_compute; split; congruence.
  - intros code [<-|[<-|[<-|[<-|[<-|[]]]]]]; unfold ex_result.
    + change (ex_page 0) with (page_00 0 0 ex_codes). replace (unpack _ _) with (Ok (page_00_object 0 0 ex_codes)) by (vm_compute; reflexivity).
      apply page_00_reads; try (unfold below; lia); [repeat constructor; unfold below; lia|vm_compute; discriminate].
    + change (ex_page 128) with (page_80 0 0 [65; 66; 32]). replace (unpack _ _) with (Ok (page_80_object 0 0 [65; 66; 32])) by (vm_compute; reflexivity).
      apply page_80_reads; try (unfold below; lia); [repeat constructor; unfold byte_ok; lia|vm_compute; discriminate].
    + change (ex_page 131) with (page_83 0 0 (flat_map descriptor_bytes [])).
      replace (unpack _ _) with (Ok (page_83_object 0 0 (zlen (flat_map descriptor_bytes [])) [])) by (vm_compute; reflexivity).
      apply page_83_reads; try (unfold below; lia); [constructor|vm_compute; reflexivity].
    + pose proof (limits_reads (ex_page 176)) as L.
      assert (B : bytes_ok (ex_page 176)) by (repeat constructor; unfold byte_ok; lia).
      specialize (L B ltac:(cbn; lia)). intro m. rewrite (L m). specialize (L 0%nat). cbn [zeros repeat] in L. rewrite app_nil_r in L. symmetry. exact L.
    + change (ex_page 199) with (other_page 0 0 199 [1; 2; 3]). replace (unpack _ _) with (Ok (other_page_object 0 0 199 [1; 2; 3])) by (vm_compute; reflexivity).
      apply other_reads; try (unfold below; lia); [repeat constructor; unfold byte_ok; lia|vm_compute; reflexivity|reflexivity].
  - destruct PropAdaptive.C88_systems_example as (A & B & _). split; assumption.
Qed.
(** The run, on Linux and on Windows. *)
Example C95_run_example :
  (exists s, sync_wait 900 (coroutine (os_of (linux_system nat 3000) ex_device) all_pages) PropAdaptive.example_linux = Some (s, shown (listed (collected ex_codes ex_result)))) /\
  exists l, collected ex_codes ex_result = Ok l /\ length l = 5%nat.
Proof. split; [|eexists; split; vm_compute; reflexivity]. eexists. vm_compute. reflexivity. Qed.

Definition many_codes : list Z := map Z.of_nat (seq 0 249).
Example C95_too_many_pages_example : Forall (below 8) many_codes /\ 248 < zlen many_codes <= 255.
Proof.
  split; [|vm_compute; split; [reflexivity|discriminate]]. apply Forall_forall. intros x I. apply in_map_iff in I. destruct I as (k & <- & I).
  apply in_seq in I. unfold below. lia.
Qed.
Ltac bytes_tac := repeat constructor; unfold byte_ok; lia.
(** The page of an ATA disk in full, and as much of it as is needed. *)
Example C95_ata_information_example : bytes_ok PropAta.ex78_page /\ (152 <= length PropAta.ex78_page)%nat /\
  unpack (get_vpd_page_data 137) (firstn 152 PropAta.ex78_page) = Ok (ata_object 46 PropAta.ex78_page).
Proof. destruct PropAta.C78_ata_information_example as (B & L & _). split; [exact B|]. split; [rewrite L; lia|]. vm_compute. reflexivity. Qed.
Example C95_veritas_example : bytes_ok [0; 192; 0; 2; 17; 5] /\
  exists l, unpack (get_vpd_page_data 192) [0; 192; 0; 2; 17; 5] = Ok (PObj "VeritasVPDPageBuffer" l) /\ lookup "is_thin_lun" l = Some (PInt 1) /\
    lookup "is_snapshot_lun" l = Some (PInt 0) /\ lookup "is_satadisk_lun" l = Some (PInt 1) /\ lookup "raid_type" l = Some (PInt 5).
Proof. split; [bytes_tac|]. eexists. vm_compute. repeat split. Qed.
Example C95_provisioned_example : let d := Designator (DesignatorInfo 1 0 0 0) (VendorSpecific [65; 66; 67]) in
  let head := [0; 178; 0; 11; 4; 225; 2; 0] in
  bytes_ok head /\ designator_ok d /\ zlen (head ++ descriptor_bytes d) = 15 /\
  exists l, unpack (get_vpd_page_data 178) (head ++ descriptor_bytes d) = Ok (PObj "LogicalBlockProvisioningVPDPageBuffer" l) /\
    lookup "provisioning_group_descriptor" l = Some (designator_object d).
Proof.
  split; [bytes_tac|]. split; [repeat constructor; unfold below, byte_ok; cbn; lia|]. split; [reflexivity|].
  eexists. split; vm_compute; reflexivity.
Qed.
(** Two designators of 120 bytes fill the page; of a third one nothing is seen. *)
Definition name_of (n : nat) : designator := Designator (DesignatorInfo 1 0 0 0) (VendorSpecific (repeat 65 n)).
Example C95_long_identification_example :
  let l := [name_of 120; name_of 120] in let more := descriptor_bytes (name_of 3) in
  Forall designator_ok l /\ zlen (flat_map descriptor_bytes l) = 248 /\ bytes_ok more /\ zlen (flat_map descriptor_bytes l ++ more) = 255 /\
  page_83_object 0 0 255 l <> page_83_object 0 0 255 (l ++ [name_of 3]) /\
  zlen (flat_map descriptor_bytes [name_of 120; name_of 118]) = 246.
Proof.
  cbv zeta. split; [repeat constructor; unfold below, byte_ok; cbn; lia|]. split; [reflexivity|].
  split; [change (bytes_ok [1; 0; 0; 3; 65; 65; 65]); bytes_tac|]. split; [reflexivity|]. split; [|reflexivity]. intro H. vm_compute in H. discriminate H.
Qed.
(** A thin device without descriptor: what the three and the one system show differs. *)
Definition thin_page : bytes := [0; 178; 0; 4; 0; 228; 2; 0].
Definition thin_device : target nat := fun t cdb _ => (t, match interpret cdb with
  | Some (OpInquiry 1 178 alloc) => good (firstn (Z.to_nat alloc) thin_page)
  | _ => good [] end).
Example C95_provisioning_example : reports_pages thin_device [178] (fun _ => thin_page) /\ bytes_ok thin_page /\ length thin_page = 8%nat /\
  provisioning_object thin_page empty_designator <> provisioning_object thin_page PNone.
Proof.
  split; [split; [repeat constructor; unfold below; lia|]|].
  { intros t cdb d code alloc [<-|[]] I. eexists. unfold thin_device. rewrite I. reflexivity. }
  split; [repeat constructor; unfold byte_ok; lia|]. split; [reflexivity|]. intro H. vm_compute in H. discriminate H.
Qed.

(** An enclosure that is reconfigured when its status is read for the first time: fans become temperature sensors. *)
Definition swapped_enclosures : list enclosure :=
  [Enclosure 1 2 0 (repeat 80 8) [78; 69; 87; 32; 32; 32; 32; 32] (repeat 65 16) [48; 53; 48; 57] [5]
     [Type_ 4 2 0 [84]; Type_ 23 1 0 []];
   Enclosure 1 2 7 (repeat 81 8) (repeat 66 8) (repeat 67 16) (repeat 68 4) [] [Type_ 3 0 7 [70]]].
Definition swapped_elements : list (group bytes) :=
  [Group (Type_ 4 2 0 [84]) [0; 0; 0; 0] [[1; 0; 45; 0]; [1; 0; 46; 0]]; Group (Type_ 23 1 0 []) [2; 0; 0; 0] [[1; 128; 0; 16]];
   Group (Type_ 3 0 7 [70]) [6; 0; 0; 0] []].
Definition enclosure_page (t : nat) (code : Z) : bytes :=
  match t with
  | O => if code =? 1 then configuration_page 3 PropSes.example_enclosures
         else if code =? 2 then status_page 9 3 PropSes.example_elements else descriptor_page 3 PropSes.example_texts
  | _ => if code =? 1 then configuration_page 4 swapped_enclosures else if code =? 2 then status_page 9 4 swapped_elements
         else descriptor_page 4 PropSes.example_texts
  end.
Definition enclosure_device : target nat := fun t cdb _ => (Datatypes.S t, match interpret cdb with
  | Some (OpReceiveDiagnostic 1 code alloc) => good (firstn (Z.to_nat alloc) (enclosure_page t code))
  | _ => good [] end).
Lemma enclosure_reports : reports_diagnostics enclosure_device enclosure_page Datatypes.S.
Proof. intros t cdb d code alloc I. unfold enclosure_device. rewrite I. reflexivity. Qed.
Example C95_configuration_example : moderate_configuration PropSes.example_enclosures /\ enclosure_page 0 1 = configuration_page 3 PropSes.example_enclosures.
Proof.
  split; [|reflexivity]. split; [|split; [discriminate|split; [cbn; lia|split; [repeat constructor|split; [|vm_compute; discriminate]]]]].
  - unfold PropSes.example_enclosures. repeat constructor; cbn; try lia; unfold byte_ok; try lia.
  - unfold all_types, PropSes.example_enclosures. cbn [flat_map e_types app]. repeat constructor; cbn; lia.
Qed.
Example C95_status_example : enclosure_page 1 2 = status_page 9 4 swapped_elements /\
  map t_elements (all_types PropSes.example_enclosures) = map (fun g => t_elements (g_type g)) swapped_elements /\
  Forall (fun g => group_complete g /\ Forall (text_of_length 4) (g_overall g :: g_elements g)) swapped_elements /\ zlen (status_body swapped_elements) <= 65527.
Proof.
  split; [reflexivity|]. split; [reflexivity|]. split; [|vm_compute; discriminate].
  unfold swapped_elements. repeat constructor; cbn; unfold byte_ok; lia.
Qed.
Example C95_descriptors_example : 
  map t_elements (all_types PropSes.example_enclosures) = map (fun g => t_elements (g_type g)) PropSes.example_texts /\
  Forall (fun g => group_complete g /\ Forall (fun t => bytes_ok t /\ zlen t < 32768) (g_overall g :: g_elements g)) PropSes.example_texts.
Proof. split; [reflexivity|]. unfold PropSes.example_texts. repeat constructor; cbn; unfold byte_ok; lia. Qed.
Example C95_unchanged_example : map g_type PropSes.example_elements = all_types PropSes.example_enclosures.
Proof. reflexivity. Qed.
(** The temperature sensors are shown as fans, without any exception. *)
Theorem C95_expected_refuted : forall (sys : system nat) lib s, one_of_four sys -> idle sys s 0%nat ->
  exists s' shown_types, sync_wait_ends (coroutine (os_of sys enclosure_device) (show_ses lib 2)) s s'
    (shown (Ok (status_page_object 9 4 (zlen (status_body swapped_elements)) (map status_group_object shown_types)))) /\
  map (fun g => t_type (g_type g)) swapped_elements = [4; 23; 3] /\ map (fun g => t_type (g_type g)) shown_types = [3; 23; 4] /\
  map g_elements shown_types = map g_elements swapped_elements.
Proof.
  intros sys lib s F Hi. destruct C95_configuration_example as (M & P). destruct C95_status_example as (P2 & TE & GS & L).
  destruct (status_run nat sys enclosure_device lib enclosure_page Datatypes.S 3 _ 9 4 swapped_elements 0%nat s F Hi enclosure_reports P M ltac:(lia) P2 TE GS
              ltac:(unfold is_byte; lia) ltac:(lia) L) as (s' & E & _).
  exists s', (retyped (all_types PropSes.example_enclosures) swapped_elements). split; [exact E|]. repeat split.
Qed.

(** All theorems at once: what is printed holds for each of them. *)
Definition all_theorems := (@C95_commands, @C95_all_pages, @C95_page_00, @C95_page_80, @C95_page_83, @C95_block_limits,
  @C95_ata_information, @C95_veritas, @C95_provisioned, @C95_other_page, @C95_too_many_pages, @C95_long_identification, @C95_provisioning,
  @C95_configuration, @C95_status, @C95_descriptors, @C95_unchanged, @C95_expected_refuted).
Print Assumptions all_theorems.
