(** The ATA Information page: C78. *)
From Coq Require Import String ZArith List Bool Lia.
From Verif Require Import Base BaseFacts OsCommon Instruct Command CdbPrimary Pages SpecDevice SpecLayout SpecPages SpecAta AtaFacts.
Import ListNotations.
Local Open Scope string_scope.
Local Open Scope Z_scope.

(** All attributes, for every data: the model number is made of words 27 to 45. *)
Theorem C78_ata_information : forall page, bytes_ok page ->
  yields (get_vpd_page 137) (Some page) = if (57 <=? length page)%nat then Ok (ata_object 46 page) else Err EInstruct.
Proof. exact ata_spec. Qed.
(** The model number of a whole page has 40 characters (words 27 to 46); the attribute has the
    first 38 of them. *)
Theorem C78_model_number_cut : forall page, bytes_ok page -> length page = 572%nat ->
  exists o, yields (get_vpd_page 137) (Some page) = Ok o /\
    length (identify_text 27 47 page) = 40%nat /\
    nested "identify_device" "model_number" o = Some (PBytes (strip (firstn 38 (identify_text 27 47 page)))).
Proof.
  intros page O L. exists (ata_object 46 page). split; [|split].
  - change (yields (get_vpd_page 137) (Some page)) with (unpack ata_information page). rewrite ata_spec by exact O. rewrite L. reflexivity.
  - apply model_cut; exact L.
  - rewrite <- (proj1 (model_cut page L)). reflexivity.
Qed.
(** The count, as the library gives it, is right only if both of its bytes are equal and small. *)
Theorem C78_sector_count : forall page o, bytes_ok page -> yields (get_vpd_page 137) (Some page) = Ok o ->
  (nested "device_signature" "sector_count" o = Some (PInt (fis_count page)) <->
   byte_at 48 page = byte_at 49 page /\ byte_at 48 page < 128).
Proof.
  intros page o O H. change (yields (get_vpd_page 137) (Some page)) with (unpack ata_information page) in H.
  rewrite ata_spec in H by exact O. destruct (Nat.leb_spec 57 (length page)) as [L|]; [|discriminate]. injection H as <-.
  change (nested "device_signature" "sector_count" (ata_object 46 page)) with (Some (PInt (sb 48 50 page))).
  assert (U : ub 48 50 page = 256 * byte_at 48 page + byte_at 49 page).
  { unfold ub. change (slice 48 50 page) with (firstn 2 (skipn 48 page)).
    assert (N : forall k, byte_at (48 + k) page = byte_at k (skipn 48 page)).
    { intro k. unfold byte_at. rewrite <- (firstn_skipn 48 page) at 1. rewrite app_nth2; rewrite firstn_length; [f_equal|]; lia. }
    pose proof (N 0%nat) as N0. pose proof (N 1%nat) as N1. cbn [Nat.add] in N0, N1. rewrite N0, N1. clear N N0 N1.
    assert (K : (2 <= length (skipn 48 page))%nat) by (rewrite skipn_length; lia).
    destruct (skipn 48 page) as [|x [|y r]]; cbn in K; try lia. unfold byte_at, be_val. cbn [firstn nth be_val_from]. lia. }
  assert (B : forall k, 0 <= byte_at k page < 256).
  { intro k. unfold byte_at. destruct (Nat.lt_ge_cases k (length page)) as [K|K].
    - apply (proj1 (Forall_forall _ _) O). apply nth_In; exact K.
    - rewrite nth_overflow by exact K. lia. }
  pose proof (B 48%nat). pose proof (B 49%nat). unfold sb. rewrite U.
  assert (I : forall x y, Some (PInt x) = Some (PInt y) -> x = y) by (intros x y [= E]; exact E).
  change (8 * Z.of_nat (50 - 48)) with 16. unfold fis_count.
  change (2 ^ (16 - 1)) with 32768. change (2 ^ 16) with 65536.
  destruct (Z.leb_spec 32768 (256 * byte_at 48 page + byte_at 49 page)); split.
  - intro E. apply I in E. lia.
  - intros [E F]. lia.
  - intro E. apply I in E. lia.
  - intros [E F]. do 2 f_equal. lia.
Qed.

(** A page with serial number 1234…, firmware FW12 and a model number of 40 characters. *)
Definition ex78_page : bytes :=
  ([0; 137; 2; 56] ++ zeros 32 ++ [52; 0; 80; 1; 1; 0; 0; 0; 0; 0; 0; 0; 1; 0] ++ zeros 6 ++ [236; 0; 0; 0] ++
   zeros 20 ++ repeat 49 20 ++ zeros 6 ++ [87; 70; 50; 49; 32; 32; 32; 32] ++
   flat_map (fun k => [66 + 2 * Z.of_nat k; 65 + 2 * Z.of_nat k]) (seq 0 20) ++ zeros 418)%list.
Example C78_ata_information_example :
  bytes_ok ex78_page /\ length ex78_page = 572%nat /\
  nested "identify_device" "firmware_revision" (ata_object 46 ex78_page) = Some (PBytes [70; 87; 49; 50]).
Proof.
  split; [|split; vm_compute; reflexivity]. apply Forall_forall. intros x H.
  assert (T : forallb (fun x => (0 <=? x) && (x <? 256)) ex78_page = true) by (vm_compute; reflexivity).
  apply (proj1 (forallb_forall _ _) T) in H. apply andb_true_iff in H. unfold byte_ok. rewrite Z.leb_le, Z.ltb_lt in H. exact H.
Qed.
(** A model number without trailing blanks loses its end: the expected reading is refuted. *)
Example C78_model_number_cut_example :
  identify_text 27 47 ex78_page = map Z.of_nat (seq 65 40) /\
  nested "identify_device" "model_number" (ata_object 46 ex78_page) = Some (PBytes (map Z.of_nat (seq 65 38))).
Proof. split; vm_compute; reflexivity. Qed.
Example C78_sector_count_example : exists o, yields (get_vpd_page 137) (Some ex78_page) = Ok o /\
  fis_count ex78_page = 1 /\ nested "device_signature" "sector_count" o = Some (PInt 256).
Proof. eexists. split; [vm_compute; reflexivity|]. split; vm_compute; reflexivity. Qed.

Print Assumptions C78_ata_information.
Print Assumptions C78_model_number_cut.
Print Assumptions C78_sector_count.
