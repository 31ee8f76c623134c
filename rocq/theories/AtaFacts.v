(** The ATA Information page. *)
From Coq Require Import String ZArith List Bool Lia.
From Verif Require Import Base BaseFacts OsCommon Instruct InstructFacts Command CdbPrimary SpecDevice CdbLemmas
  ResponseLemmas Pages SpecLayout LayoutFacts SpecPages VpdFacts InquiryFacts RobustFacts SpecAta.
Import ListNotations.
Local Open Scope string_scope.
Local Open Scope Z_scope.

Definition at_byte (buf : bytes) (k : nat) : bytes := slice k (Datatypes.S k) buf.
Lemma inner_bytes : forall a b buf ks, forallb (fun k => (a + k <? b)%nat) ks = true ->
  flat_map (fun k => slice k (Datatypes.S k) (slice a b buf)) ks = flat_map (at_byte buf) (map (fun k => (a + k)%nat) ks).
Proof.
  intros a b buf. induction ks as [|k ks IH]; intro H; [reflexivity|]. cbn [forallb] in H. apply andb_true_iff in H.
  destruct H as [K H]. apply Nat.ltb_lt in K. cbn [flat_map map]. rewrite (IH H). f_equal. rewrite slice_slice. unfold at_byte.
  f_equal; lia.
Qed.
Lemma words_bytes : forall buf a n,
  identify_text a (a + n) buf = flat_map (at_byte buf) (flat_map (fun w => [(60 + 2 * w + 1); (60 + 2 * w)]%nat) (seq a n)).
Proof.
  intros buf a n. unfold identify_text. replace (a + n - a)%nat with n by lia. revert a.
  induction n as [|n IH]; intro a; [reflexivity|]. cbn [seq flat_map]. rewrite IH, flat_map_app. f_equal. cbn [flat_map].
  rewrite app_nil_r. unfold at_byte. f_equal; f_equal; lia.
Qed.
Lemma slice_bytes : forall buf a n, slice a (a + n) buf = flat_map (at_byte buf) (seq a n).
Proof.
  intros buf a n. revert a. induction n as [|n IH]; intro a.
  - unfold slice. replace (a + 0 - a)%nat with O by lia. reflexivity.
  - cbn [seq flat_map]. rewrite <- IH. unfold at_byte, slice.
    replace (a + Datatypes.S n - a)%nat with (Datatypes.S n) by lia. replace (Datatypes.S a - a)%nat with 1%nat by lia.
    replace (Datatypes.S a + n - Datatypes.S a)%nat with n by lia.
    clear. revert buf. induction a as [|a IHa]; intros [|x buf]; cbn [skipn firstn app]; try reflexivity.
    + destruct n; reflexivity.
    + destruct n; reflexivity.
    + apply IHa.
Qed.
Lemma sb_slice : forall a b c d l, (a + d <= b)%nat -> sb c d (slice a b l) = sb (a + c) (a + d) l.
Proof.
  intros a b c d l H. unfold sb, ub. rewrite slice_slice. replace (Nat.min (a + d) b) with (a + d)%nat by lia.
  replace (a + d - (a + c))%nat with (d - c)%nat by lia. reflexivity.
Qed.

Definition signature_layout1 : layout :=
  [("transport_id", SNum 0 1); ("pm_port", Bits 1 0 4); ("interrupt", flag 1 6); ("status", SNum 2 3); ("error", SNum 3 4)].
Definition signature_layout2 : layout := [("device", SNum 7 8); ("sector_count", SNum 12 14)].
Lemma signature_spec : forall buf, bytes_ok buf -> (56 <= length buf)%nat ->
  unpack device_signature (slice 36 56 buf) = Ok (signature_object buf).
Proof.
  intros buf O L. set (e := slice 36 56 buf).
  assert (Oe : bytes_ok e) by (apply slice_ok; exact O).
  assert (Le : length e = 20%nat) by (unfold e; rewrite VpdFacts.slice_length; lia).
  unfold unpack, device_signature. cbn [c_fields c_name].
  rewrite (unpack_layout _ signature_layout1) by (auto; reflexivity).
  change (layout_end signature_layout1) with 4%nat. rewrite Le. cbn [Nat.leb app].
  rewrite uf_cons. unfold r_str_at at 1. cbn [bind].
  rewrite <- (app_nil_r (map reader_of [I "device" _; _])).
  rewrite (unpack_layout _ signature_layout2) by (auto; reflexivity).
  change (layout_end signature_layout2) with 14%nat. rewrite Le. cbn [Nat.leb unpack_fields bind].
  unfold signature_object. f_equal. f_equal.
  unfold e at 2. rewrite inner_bytes by reflexivity.
  change (slice 40 43 buf) with (slice 40 (40 + 3) buf). change (slice 44 47 buf) with (slice 44 (44 + 3) buf).
  rewrite !slice_bytes, <- flat_map_app. cbn [signature_layout1 signature_layout2 layout_values map fst snd loc_value flag app].
  unfold e. rewrite !sb_slice by lia. rewrite !bf_slice by lia. reflexivity.
Qed.
Lemma identify_spec : forall buf, unpack ata_identify_device (slice 60 572 buf) = Ok (identify_object 46 buf).
Proof.
  intro buf. unfold unpack, ata_identify_device. cbn [c_fields c_name]. rewrite !uf_cons. unfold r_str_at. cbn [bind unpack_fields].
  rewrite !inner_bytes by reflexivity. unfold identify_object.
  replace (identify_text 10 20 buf) with (identify_text 10 (10 + 10) buf) by reflexivity. rewrite (words_bytes buf 10 10).
  replace (identify_text 23 27 buf) with (identify_text 23 (23 + 4) buf) by reflexivity. rewrite (words_bytes buf 23 4).
  replace (identify_text 27 46 buf) with (identify_text 27 (27 + 19) buf) by reflexivity. rewrite (words_bytes buf 27 19).
  reflexivity.
Qed.
Lemma ata_spec : forall buf, bytes_ok buf ->
  unpack ata_information buf = if (57 <=? length buf)%nat then Ok (ata_object 46 buf) else Err EInstruct.
Proof.
  intros buf O. unfold unpack, ata_information. cbn [c_fields c_name]. rewrite uf_peripheral by exact O.
  assert (R : forall n a b k got, (a < b)%nat -> unpack_fields ((n, r_sint (bytes_of a b)) :: k) got buf =
    if (b <=? length buf)%nat then unpack_fields k (got ++ [(n, PInt (sb a b buf))])%list buf else Err EInstruct).
  { intros n a b k got H. rewrite uf_cons. unfold r_sint, r_int.
    pose proof (read_loc (SNum a b) true buf O) as X. cbn [loc_ok loc_bits loc_signed loc_end loc_value] in X.
    rewrite X by (first [apply Nat.ltb_lt; exact H | left; reflexivity]). destruct (b <=? length buf)%nat; reflexivity. }
  change (byte_of 1) with (bytes_of 1 2). change (byte_of 56) with (bytes_of 56 57).
  destruct (Nat.leb_spec 57 (length buf)) as [L|L].
  - too_short. rewrite R by lia. too_short. rewrite R by lia. too_short.
    do 3 (rewrite uf_cons; unfold r_str at 1, upto at 1; cbn [bind]). rewrite uf_cons. unfold r_obj at 1, upto at 1.
    change (Z.to_nat 56) with 56%nat. rewrite signature_spec by (auto; lia). cbn [bind]. rewrite R by lia. too_short.
    rewrite uf_cons. unfold r_obj, upto. change (Z.to_nat 572) with 572%nat. rewrite identify_spec. reflexivity.
  - destruct (1 <=? length buf)%nat; [|reflexivity]. rewrite R by lia. destruct (2 <=? length buf)%nat; [|reflexivity].
    rewrite R by lia. destruct (4 <=? length buf)%nat; [|reflexivity].
    do 3 (rewrite uf_cons; unfold r_str at 1, upto at 1; cbn [bind]). rewrite uf_cons. unfold r_obj at 1.
    pose proof (unpack_tame device_signature signature_tame (slice 36 (Z.to_nat (upto 56 [] buf)) buf)) as T.
    unfold upto in *. destruct (unpack device_signature _) as [v|e]; cbn [bind]; [rewrite R by lia; too_short; reflexivity|].
    f_equal. apply T. reflexivity.
Qed.
Lemma identify_text_length : forall buf a n, length buf = 572%nat -> (a + n <= 256)%nat -> length (identify_text a (a + n) buf) = (2 * n)%nat.
Proof.
  intros buf a n L. unfold identify_text. replace (a + n - a)%nat with n by lia. revert a. induction n as [|n IH]; intros a H; [reflexivity|].
  cbn [seq flat_map]. rewrite !app_length, IH by lia. rewrite !VpdFacts.slice_length. lia.
Qed.
Lemma identify_text_app : forall buf a b c, (a <= b <= c)%nat -> identify_text a c buf = (identify_text a b buf ++ identify_text b c buf)%list.
Proof.
  intros buf a b c H. unfold identify_text. rewrite <- flat_map_app. f_equal.
  replace (c - a)%nat with (b - a + (c - b))%nat by lia. rewrite seq_app. replace (a + (b - a))%nat with b by lia. reflexivity.
Qed.
Lemma model_cut : forall page, length page = 572%nat ->
  identify_text 27 46 page = firstn 38 (identify_text 27 47 page) /\ length (identify_text 27 47 page) = 40%nat.
Proof.
  intros page L. split.
  - rewrite (identify_text_app page 27 46 47) by lia. rewrite firstn_app.
    pose proof (identify_text_length page 27 19 L) as K. change (27 + 19)%nat with 46%nat in K. rewrite K by lia.
    replace (38 - 2 * 19)%nat with O by lia. rewrite firstn_all2 by (rewrite K by lia; lia). cbn [firstn]. rewrite app_nil_r. reflexivity.
  - apply (identify_text_length page 27 20 L). lia.
Qed.
