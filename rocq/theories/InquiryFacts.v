(** Standard INQUIRY data, T10 designators, other parameter data and the page dispatch. *)
From Coq Require Import String ZArith List Bool Lia.
From Verif Require Import Base BaseFacts OsCommon Instruct InstructFacts Command CdbPrimary SpecDevice CdbLemmas
  ResponseLemmas CdbResponseFacts CdbPrimaryFacts Pages SpecLayout LayoutFacts SpecPages PageFacts DesignatorFacts SpecVpd VpdFacts SpecPack PackFacts.
Import ListNotations.
Local Open Scope string_scope.
Local Open Scope Z_scope.

(** * Standard INQUIRY data *)
Lemma ext_slice : forall buf, bytes_ok buf ->
  slice 36 (Z.to_nat (5 + ub 4 5 buf)) buf = slice 36 (inquiry_end buf) buf.
Proof.
  intros buf O. unfold inquiry_end. pose proof (ub_nonneg 4 5 buf O).
  replace (Z.to_nat (5 + ub 4 5 buf)) with (Z.to_nat (ub 4 5 buf) + 5)%nat by lia.
  unfold slice. destruct (Nat.le_gt_cases (length buf) (Z.to_nat (ub 4 5 buf) + 5)).
  - rewrite Nat.min_l by lia. rewrite !firstn_all2; [reflexivity| |]; rewrite skipn_length; lia.
  - rewrite Nat.min_r by lia. reflexivity.
Qed.
Lemma bf_slice : forall a b k lo w l, (a + k < b)%nat -> bf k lo w (slice a b l) = bf (a + k) lo w l.
Proof.
  intros a b k lo w l H. unfold bf, slice. rewrite byte_at_firstn by lia. rewrite byte_at_skipn. reflexivity.
Qed.
Lemma uf_cons : forall n r k got buf,
  unpack_fields ((n, r) :: k) got buf = do v <- r got buf; unpack_fields k (got ++ [(n, v)])%list buf.
Proof. reflexivity. Qed.
Lemma uf_if_uint : forall n c k lo w rest got buf, bytes_ok buf -> ((lo <? lo + w) && (lo + w <=? 8) && (w <? 8) = true)%nat ->
  (Z.of_nat k < c) ->
  unpack_fields ((n, r_if (longer c) (r_uint (bits_of k lo (lo + w)))) :: rest) got buf =
  unpack_fields rest (got ++ [(n, when (c <=? zlen buf) (PInt (bf k lo w buf)))])%list buf.
Proof.
  intros n c k lo w rest got buf O B H. rewrite !andb_true_iff, Nat.leb_le, !Nat.ltb_lt in B.
  cbn [unpack_fields]. unfold r_if at 1, longer. destruct (Z.leb_spec c (zlen buf)) as [L|L]; [|reflexivity].
  unfold r_uint, r_int. rewrite read_bits by (auto; lia).
  destruct (Nat.ltb_spec k (length buf)); [|unfold zlen in L; lia]. replace (lo + w - lo)%nat with w by lia. reflexivity.
Qed.

Lemma extended_spec : forall buf n, bytes_ok buf -> inquiry_end buf = n ->
  unpack extended_inquiry (slice 36 n buf) = Ok (extended_object buf).
Proof.
  intros buf n O E. set (e := slice 36 n buf).
  assert (N : (n <= length buf)%nat) by (rewrite <- E; unfold inquiry_end; lia).
  assert (OE : bytes_ok e) by (apply slice_ok; exact O).
  assert (LE : length e = (n - 36)%nat) by (subst e; rewrite slice_length; lia).
  assert (C : forall c m, c = Z.of_nat m -> (0 < m)%nat -> (c <=? zlen e) = (36 + m <=? n)%nat).
  { intros c m -> M. rewrite zlen_leb, LE. apply eq_true_iff_eq. rewrite !Nat.leb_le. lia. }
  unfold unpack, extended_inquiry. cbn [c_fields c_name].
  change (bit 20 0) with (bits_of 20 0 (0 + 1)). change (bit 20 1) with (bits_of 20 1 (1 + 1)).
  change (bits_of 20 2 4) with (bits_of 20 2 (2 + 2)).
  rewrite uf_cons. unfold r_bytes at 1. cbn [bind app].
  rewrite uf_if_uint by (auto; lia). rewrite uf_if_uint by (auto; lia). rewrite uf_if_uint by (auto; lia). cbn [app].
  rewrite (C 21 21%nat eq_refl) by lia. change (36 + 21)%nat with 57%nat.
  rewrite uf_cons. unfold r_if at 1, longer. rewrite (C 24 24%nat eq_refl) by lia. change (36 + 24)%nat with 60%nat.
  assert (V : (if (60 <=? n)%nat
     then r_list_n (elem_uint 2) 22 to_end (fun (_ : attrs) (buf0 : bytes) => Z.min ((zlen buf0 - 22) / 2) 8)
        [("vendor_specific_1", PBytes (slice 0 (Z.to_nat (Z.min 20 (zlen e))) e));
         ("ius", when (57 <=? n)%nat (PInt (bf 20 0 1 e))); ("qas", when (57 <=? n)%nat (PInt (bf 20 1 1 e)));
         ("clocking", when (57 <=? n)%nat (PInt (bf 20 2 2 e)))] e
     else Ok PNone) =
     Ok (when (60 <=? n)%nat (PList (map (fun k => PInt (version_descriptor k buf)) (seq 0 (Nat.min 8 ((n - 58) / 2))))))).
  { destruct (Nat.leb_spec 60 n) as [G|G]; [|reflexivity]. unfold r_list_n, to_end. unfold zlen at 2.
    rewrite Nat2Z.id, slice_all by lia.
    assert (K : Z.to_nat (Z.min ((zlen e - 22) / 2) 8) = Nat.min 8 ((n - 58) / 2)).
    { unfold zlen. rewrite LE. rewrite Z2Nat.inj_min, Z2Nat.inj_div by lia. rewrite Nat.min_comm. f_equal.
      change (Z.to_nat 2) with 2%nat. f_equal. lia. }
    rewrite K. rewrite list_n_uint; [|lia|apply Forall_forall; intros x I; apply skipn_in in I; revert x I; apply Forall_forall; exact OE].
    rewrite skipn_length, LE. pose proof (Nat.mul_div_le (n - 58) 2 ltac:(lia)) as D.
    destruct (Nat.leb_spec (Nat.min 8 ((n - 58) / 2) * 2) (n - 36 - 22)); [|lia].
    cbn [bind when]. do 2 f_equal. apply map_ext_in. intros k I. apply in_seq in I. f_equal. rewrite ub_skipn.
    unfold version_descriptor, ub. f_equal. subst e. rewrite slice_slice. f_equal; lia. }
  rewrite V. cbn [bind app]. rewrite uf_cons. unfold r_if at 1. rewrite (C 61 61%nat eq_refl) by lia. change (36 + 61)%nat with 97%nat.
  assert (X : (if (97 <=? n)%nat then r_bytes 60 to_end
        [("vendor_specific_1", PBytes (slice 0 (Z.to_nat (Z.min 20 (zlen e))) e));
         ("ius", when (57 <=? n)%nat (PInt (bf 20 0 1 e))); ("qas", when (57 <=? n)%nat (PInt (bf 20 1 1 e)));
         ("clocking", when (57 <=? n)%nat (PInt (bf 20 2 2 e)));
         ("version_descriptors", when (60 <=? n)%nat (PList (map (fun k => PInt (version_descriptor k buf)) (seq 0 (Nat.min 8 ((n - 58) / 2))))))] e
      else Ok PNone) = Ok (when (97 <=? n)%nat (PBytes (slice 96 n buf)))).
  { destruct (Nat.leb_spec 97 n) as [G|G]; [|reflexivity]. unfold r_bytes, to_end, zlen. rewrite Nat2Z.id.
    cbn [when]. do 2 f_equal. subst e. rewrite slice_slice. f_equal. rewrite slice_length. lia. }
  rewrite X. cbn [bind app unpack_fields]. unfold extended_object. rewrite E.
  assert (Y : slice 0 (Z.to_nat (Z.min 20 (zlen e))) e = slice 36 (Nat.min 56 n) buf).
  { subst e. rewrite slice_slice. unfold zlen. rewrite slice_length. f_equal. lia. }
  assert (B : forall lo w, when (57 <=? n)%nat (PInt (bf 20 lo w e)) = when (57 <=? n)%nat (PInt (bf 56 lo w buf))).
  { intros lo w. destruct (Nat.leb_spec 57 n); [|reflexivity]. cbn [when]. subst e. rewrite bf_slice by lia. reflexivity. }
  rewrite Y, !B. reflexivity.
Qed.

Lemma standard_inquiry_spec : forall buf, bytes_ok buf ->
  unpack standard_inquiry_data buf = if (8 <=? length buf)%nat then Ok (standard_inquiry_object buf) else Err EInstruct.
Proof.
  intros buf O. unfold unpack, standard_inquiry_data. cbn [c_fields c_name].
  rewrite uf_peripheral by exact O. rewrite (unpack_layout _ standard_inquiry_layout) by (auto; reflexivity).
  change (layout_end standard_inquiry_layout) with 8%nat.
  destruct (Nat.leb_spec 8 (length buf)) as [L|L]; [too_short|destruct (1 <=? length buf)%nat; reflexivity].
  cbn [unpack_fields]. unfold r_str at 1 2 3, upto. cbn [bind]. unfold r_if at 1.
  change (int_attr "additional_length" _) with (ub 4 5 buf).
  unfold r_obj, plus. change (int_attr "additional_length" _) with (ub 4 5 buf). rewrite ext_slice by exact O.
  rewrite extended_spec by (auto; reflexivity). unfold standard_inquiry_object.
  destruct (31 <? ub 4 5 buf); cbn [bind when]; rewrite <- !app_assoc; reflexivity.
Qed.

(** ** Packing *)
Lemma ok_same : forall {A} (x y : A), Ok x = Ok y -> x = y.
Proof. intros A x y E. injection E. auto. Qed.
Lemma pack_text_length : forall pad n s b, pack_text pad n s = Ok b -> length b = n.
Proof.
  intros pad n s b. unfold pack_text. destruct (Nat.leb_spec (length s) n); [|discriminate]. intros E. injection E as <-.
  rewrite app_length, repeat_length. lia.
Qed.
Lemma pack_inquiry_length : forall type qualifier numbers vendor product revision ext b,
  pack_standard_inquiry type qualifier numbers vendor product revision ext = Ok b ->
  zlen b = 5 + ub 4 5 b /\ match ext with None => zlen b = 36 | Some e => exists x, pack_extended e = Ok x /\ zlen b = 36 + zlen x end.
Proof.
  intros type qualifier numbers vendor product revision ext b. unfold pack_standard_inquiry, pack_buffer.
  rewrite !pack_fields_spec. destruct (packable peripheral_device_fields _) eqn:K1; [|discriminate]. cbn [bind].
  set (pd := image _ peripheral_device_fields _). assert (L1 : length pd = 1%nat) by apply image_length.
  destruct (match ext with None => Ok [] | Some e => pack_extended e end) as [e|] eqn:X; [|discriminate]. cbn [bind].
  rewrite pack_fields_spec. destruct (packable standard_inquiry_numbers _) eqn:K2; [|discriminate]. cbn [bind].
  set (a := ("additional_length", 31 + zlen e) :: numbers) in *.
  destruct (pack_text 32 8 vendor) as [v|] eqn:V; [|discriminate]. destruct (pack_text 32 16 product) as [p|] eqn:P; [|discriminate].
  destruct (pack_text 32 4 revision) as [r|] eqn:R; [|discriminate]. cbn [bind]. intros E. apply ok_same in E. subst b.
  apply pack_text_length in V, P, R.
  assert (L2 : length (image 8 standard_inquiry_numbers a) = 8%nat) by apply image_length.
  assert (Q : zlen (pd ++ skipn 1 (image 8 standard_inquiry_numbers a) ++ v ++ p ++ r ++ e)%list = 36 + zlen e).
  { unfold zlen. rewrite !app_length, skipn_length, L1, L2, V, P, R. lia. }
  assert (F : ub 4 5 (pd ++ skipn 1 (image 8 standard_inquiry_numbers a) ++ v ++ p ++ r ++ e)%list = 31 + zlen e).
  { set (f := U "additional_length" (byte_of 4)).
    assert (I : In f standard_inquiry_numbers) by (do 6 right; left; reflexivity).
    pose proof (read_packed 8 standard_inquiry_numbers a [] f eq_refl K2 I eq_refl) as G. rewrite app_nil_r in G.
    change (f_signed f) with false in G. change (f_bits f) with (byte_of 4) in G. rewrite byte_of_bytes in G.
    rewrite read_bytes in G by (first [lia | apply image_ok]). rewrite L2 in G. cbn [Nat.leb] in G.
    change (attr (f_name f) a) with (31 + zlen e) in G. 
    assert (G' : ub 4 5 (image 8 standard_inquiry_numbers a) = 31 + zlen e) by congruence. rewrite <- G'.
    rewrite !byte_at_ub. unfold byte_at. rewrite app_nth2 by lia. rewrite L1. rewrite app_nth1 by (rewrite skipn_length; lia).
    change (4 - 1)%nat with 3%nat. fold (byte_at 3 (skipn 1 (image 8 standard_inquiry_numbers a))). rewrite byte_at_skipn. reflexivity. }
  rewrite Q, F. split; [lia|]. destruct ext as [x|].
  - exists e. split; [exact X|reflexivity].
  - injection X as <-. reflexivity.
Qed.

(** * T10 vendor designators *)
Lemma t10_unpack : forall h v x n, length h = 4%nat -> length v = 8%nat -> bytes_ok h -> bytes_ok v -> bytes_ok x ->
  forall header, unpack_fields (map reader_of designator_header) [] (h ++ v ++ x)%list = Ok header ->
  int_attr "designator_length" header = n ->
  unpack t10_designator (h ++ v ++ x)%list =
  Ok (PObj "T10VendorIDDesignator"
       (header ++ [("t10_vendor_identification", PBytes (strip v));
                   ("vendor_specific_identifier", PBytes (firstn (Z.to_nat (n - 8)) x))])%list).
Proof.
  intros h v x n H V OH OV OX header E N. set (b := (h ++ v ++ x)%list) in *.
  assert (OB : bytes_ok b) by (subst b; repeat (apply bytes_ok_app; split); assumption).
  unfold unpack, t10_designator, designator_text_class. cbn [c_fields c_name].
  rewrite (unpack_layout designator_header header_layout) by (auto; reflexivity).
  rewrite <- (app_nil_r (map reader_of designator_header)) in E.
  rewrite (unpack_layout designator_header header_layout) in E by (auto; reflexivity).
  destruct (layout_end header_layout <=? length b)%nat; [|discriminate]. cbn [unpack_fields app] in E. apply ok_same in E.
  cbn [app]. rewrite E. cbn [unpack_fields]. unfold r_str, upto. cbn [bind]. unfold r_bytes, announced, plus.
  assert (D : int_attr "designator_length" (header ++ [("t10_vendor_identification", PBytes (strip (slice 4 (Z.to_nat 12) b)))])%list = n).
  { rewrite <- N, <- E. reflexivity. }
  rewrite D. cbn [bind]. rewrite <- app_assoc. cbn [app].
  assert (S1 : slice 4 (Z.to_nat 12) b = v).
  { subst b. unfold slice. rewrite skipn_exactly by exact H. change (Z.to_nat 12 - 4)%nat with 8%nat. rewrite <- V.
    rewrite firstn_app, firstn_all, Nat.sub_diag. cbn. apply app_nil_r. }
  rewrite S1.
  replace (slice 12 (Z.to_nat (4 + n)) b) with (firstn (Z.to_nat (n - 8)) x); [reflexivity|].
  subst b. unfold slice. rewrite app_assoc. rewrite skipn_exactly by (rewrite app_length; lia). f_equal. lia.
Qed.
Lemma t10_pack : forall o header vendor id b, bytes_ok vendor -> bytes_ok id ->
  pack_t10_designator o header vendor id = Ok b ->
  exists attrs, unpack t10_designator b =
    Ok (PObj "T10VendorIDDesignator"
          (attrs ++ [("t10_vendor_identification", PBytes (strip vendor));
                     ("vendor_specific_identifier", PBytes (firstn (length id - 8) id))])%list).
Proof.
  intros o header vendor id b OV OI. unfold pack_t10_designator, pack_buffer. rewrite pack_fields_spec.
  set (a := ("designator_length", zlen id) :: ("designator_type", 1) :: header).
  destruct (packable designator_header a) eqn:K; [|discriminate]. cbn [bind].
  change (buffer_size designator_header) with 4%nat.
  set (h := image 4 designator_header a). assert (LH : length h = 4%nat) by apply image_length.
  assert (OH : bytes_ok h) by apply image_ok.
  destruct (pack_text 0 8 vendor) as [v|] eqn:V; [|discriminate]. cbn [bind].
  pose proof (pack_text_length 0 8 vendor v V) as LV.
  assert (SV : strip v = strip vendor /\ bytes_ok v).
  { unfold pack_text in V. destruct (length vendor <=? 8)%nat; [|discriminate]. apply ok_same in V. subst v. split.
    - unfold strip. rewrite rev_app_distr, rev_repeat. f_equal. generalize (8 - length vendor)%nat.
      intros m. induction m as [|m IH]; [reflexivity|]. exact IH.
    - apply bytes_ok_app. split; [exact OV|]. apply Forall_forall. intros x I. apply repeat_spec in I. subst. unfold byte_ok. lia. }
  destruct SV as [SV OVV].
  assert (G : forall x, bytes_ok x -> firstn (length id - 8) x = firstn (length id - 8) id ->
    exists attrs, unpack t10_designator (h ++ v ++ x)%list =
    Ok (PObj "T10VendorIDDesignator"
          (attrs ++ [("t10_vendor_identification", PBytes (strip vendor));
                     ("vendor_specific_identifier", PBytes (firstn (length id - 8) id))])%list)).
  { intros x OX F. exists (given designator_header a).
    pose proof (unpack_packed 4 designator_header a (v ++ x)%list eq_refl K ltac:(repeat constructor) designator_header (incl_refl _) [] []) as E.
    rewrite app_nil_r in E. fold h in E.
    rewrite (t10_unpack h v x (zlen id) LH LV OH OVV OX _ E) by reflexivity.
    rewrite SV. replace (Z.to_nat (zlen id - 8)) with (length id - 8)%nat by (unfold zlen; lia). rewrite F. reflexivity. }
  assert (OF : bytes_ok (firstn (length id - 8) id)).
  { apply Forall_forall. intros x I. apply firstn_in in I. revert x I. apply Forall_forall. exact OI. }
  destruct (Nat.leb_spec (length id) (length id - 8)); [intros E; apply ok_same in E; subst b; apply G; auto|].
  destruct o; intros E; [apply ok_same in E; subst b|apply ok_same in E; subst b|discriminate].
  - apply G; [exact OF|]. rewrite firstn_firstn, Nat.min_id. reflexivity.
  - apply G; auto.
Qed.

(** * RECEIVE COPY OPERATING PARAMETERS, REPORT CAPABILITIES *)
Definition receive_copy_numbers : list field :=
  [U "available_data" (bytes_of 0 4); I "snlid" (bits_of 4 0 1); U "max_cscd_descriptor_count" (bytes_of 8 10);
   U "max_segment_descriptor_count" (bytes_of 10 12); U "max_descriptor_list_length" (bytes_of 12 16);
   U "max_segment_length" (bytes_of 16 20); U "max_inline_data_length" (bytes_of 20 24); U "held_data_limit" (bytes_of 24 28);
   U "max_stream_device_transfer_size" (bytes_of 28 32); U "total_concurrent_copies" (bytes_of 34 36);
   U "max_concurrent_copies" (byte_of 36); U "data_segment_granularity" (byte_of 37); U "inline_data_granularity" (byte_of 38);
   U "held_data_granularity" (byte_of 39); U "implemented_descriptor_list_length" (byte_of 43)].
Lemma receive_copy_class : receive_copy_response =
  PyClass "ReceiveCopyOperatingParametersResponse"
    (map reader_of receive_copy_numbers ++
     [("implemented_descriptor_list", r_list (elem_uint 1) 44 (plus "implemented_descriptor_list_length" 44))])%list.
Proof. reflexivity. Qed.
Lemma receive_copy_response_spec : forall buf, bytes_ok buf ->
  unpack receive_copy_response buf =
  if (44 <=? length buf)%nat
  then Ok (PObj "ReceiveCopyOperatingParametersResponse"
             (layout_values receive_copy_layout buf ++
              [("implemented_descriptor_list", PList (map PInt (slice 44 (44 + Z.to_nat (ub 43 44 buf)) buf)))])%list)
  else Err EInstruct.
Proof.
  intros buf O. rewrite receive_copy_class. unfold unpack. cbn [c_fields c_name].
  rewrite (unpack_layout _ receive_copy_layout) by (auto; reflexivity). change (layout_end receive_copy_layout) with 44%nat.
  destruct (44 <=? length buf)%nat; [|reflexivity]. cbn [app unpack_fields]. unfold r_list, plus.
  change (int_attr "implemented_descriptor_list_length" _) with (ub 43 44 buf).
  change 44 with (Z.of_nat 44) at 1. rewrite to_nat_plus by (apply ub_nonneg; exact O).
  unfold read_list. rewrite list_all_bytes by (auto using slice_ok). reflexivity.
Qed.
Definition report_capabilities_fields : list field :=
  [U "length" (bytes_of 0 2); U "persist_through_power_lost_capable" (bit 2 0); U "reserved_1" (bit 2 1);
   U "all_target_ports_capable" (bit 2 2); U "specify_initiator_ports_capable" (bit 2 3);
   U "compatible_reservation_handling" (bit 2 4); U "reserved_2" (bits_of 2 5 7); U "replace_lost_reservation_capable" (bit 2 7);
   U "persist_through_power_lost_activates" (bit 3 0); U "reserved_3" (bits_of 3 1 4); U "allow_commands" (bits_of 3 4 7);
   U "type_mask_valid" (bit 3 7); U "write_exclusive" (bit 4 1); U "exclusive_access" (bit 4 3);
   U "write_exclusive_registrants_only" (bit 4 5); U "exclusive_access_registrants_only" (bit 4 6);
   U "write_exclusive_all_registrants" (bit 4 7); U "exclusive_access_all_registrants" (bit 5 0); U "reserved_4" (bytes_of 6 8)].
Lemma report_capabilities_response_spec : forall buf, bytes_ok buf ->
  unpack report_capabilities_response buf =
  if (8 <=? length buf)%nat
  then Ok (PObj "PersistentReserveInReportCapabilitiesResponse" (layout_values report_capabilities_layout buf)) else Err EInstruct.
Proof.
  intros buf O. change report_capabilities_response with (buffer_class "PersistentReserveInReportCapabilitiesResponse" report_capabilities_fields).
  rewrite (unpack_layout_all _ _ report_capabilities_layout) by (auto; reflexivity). reflexivity.
Qed.

(** * Page dispatch *)
Lemma vpd_dispatch : forall code,
  asks (do o <- get_vpd_page code; request o) (below 8 code) (fst (vpd_page code)) (OpInquiry 1 code (fst (vpd_page code))) /\
  c_name (get_vpd_page_data code) = snd (vpd_page code) /\
  (forall o d, get_vpd_page code = Ok o -> o_finish o (o_attrs o) (Some d) = unpack (get_vpd_page_data code) d).
Proof.
  intros code.
  assert (C : (In code [0; 128; 131; 137; 176; 178; 192]) \/
    (get_vpd_page code = evpd_inquiry code 2048 unknown_vpd_page /\ get_vpd_page_data code = unknown_vpd_page /\
     vpd_page code = (2048, "UnknownVPDPageBuffer"))).
  { destruct (in_dec Z.eq_dec code [0; 128; 131; 137; 176; 178; 192]) as [I|N]; [left; exact I|right]. cbn [In] in N.
    assert (code <> 0 /\ code <> 128 /\ code <> 131 /\ code <> 137 /\ code <> 176 /\ code <> 178 /\ code <> 192) as
      (N0 & N1 & N2 & N3 & N4 & N5 & N6) by intuition congruence. clear N.
    split; [|split].
    - unfold get_vpd_page. destruct code as [|p|p]; [congruence| |reflexivity].
      do 8 (try reflexivity; destruct p as [p|p|]; try congruence).
    - unfold get_vpd_page_data. destruct code as [|p|p]; [congruence| |reflexivity].
      do 8 (try reflexivity; destruct p as [p|p|]; try congruence).
    - unfold vpd_page, known_vpd_pages. cbn [known_page].
      repeat match goal with |- context [code =? ?k] => destruct (Z.eqb_spec code k); [congruence|] end. reflexivity. }
  assert (B : forall alloc parse, 0 <= alloc < 2 ^ 16 ->
    asks (do o <- inquiry 1 code alloc parse; request o) (below 8 code) alloc (OpInquiry 1 code alloc)).
  { intros alloc parse A. pose proof (inquiry_spec 1 code alloc parse) as S. unfold asks in *.
    destruct (do o <- inquiry 1 code alloc parse; request o) as [[cdb m|]|]; [|exact S|].
    - destruct S as ((S1 & S2 & S3) & S4). split; [exact S2|exact S4].
    - intros X. apply S. split; [lia|]. split; [exact X|exact A]. }
  destruct C as [I|(E1 & E2 & E3)].
  - repeat (destruct I as [<-|I]; [split; [apply B; cbn; lia|]; split; [reflexivity|]; intros o d E; injection E as <-; reflexivity|]).
    destruct I.
  - rewrite E1, E2, E3. cbn [fst snd]. split; [apply B; lia|]. split; [reflexivity|]. intros o d E. injection E as <-. reflexivity.
Qed.

(** * Classes with numeric fields only *)
Definition numeric_classes : list (pyclass * list field) :=
  [(peripheral_device, peripheral_device_fields);
   (eui64_designator, (designator_header ++ eui64_fields)%list);
   (eui64_12_designator, (designator_header ++ eui64_12_fields)%list);
   (eui64_16_designator, (designator_header ++ eui64_16_fields)%list);
   (naa2_designator, (designator_header ++ naa2_fields)%list);
   (naa3_designator, (designator_header ++ naa3_fields)%list);
   (naa5_designator, (designator_header ++ naa5_fields)%list);
   (naa6_designator, (designator_header ++ naa6_fields)%list);
   (relative_target_port_designator, (designator_header ++ [U "relative_target_port_identifier" (bytes_of 6 8)])%list);
   (target_port_group_designator, (designator_header ++ [U "target_port_group" (bytes_of 6 8)])%list);
   (logical_unit_group_designator, (designator_header ++ [U "logical_unit_group" (bytes_of 6 8)])%list);
   (report_capabilities_response, report_capabilities_fields)].
Lemma numeric_classes_ok : forall c fs, In (c, fs) numeric_classes ->
  c = buffer_class (c_name c) fs /\ Forall required fs /\ disjoint_fields fs.
Proof.
  intros c fs I. cbn [numeric_classes In] in I.
  repeat (destruct I as [E|I]; [apply pair_equal_spec in E; destruct E as [<- <-]; split; [reflexivity|]; split; [repeat constructor|apply nodupb_ok; vm_compute; reflexivity]|]).
  destruct I.
Qed.
Lemma numeric_roundtrip : forall c fs a, In (c, fs) numeric_classes ->
  match pack_buffer fs a with
  | Ok b => Forall (set_and_fits a) fs /\ unpack c b = Ok (PObj (c_name c) (given fs a))
  | Err e => e = EInstruct /\ ~ Forall (set_and_fits a) fs
  end.
Proof.
  intros c fs a I. destruct (numeric_classes_ok c fs I) as (E & R & D). pose proof (roundtrip (c_name c) fs a R D) as T.
  destruct (pack_buffer fs a) as [b|e]; [|exact T]. destruct T as (T1 & _ & T2). split; [exact T1|]. rewrite E at 1. exact T2.
Qed.
Definition numeric_pages : list (pyclass * list field) :=
  [(block_limits, block_limits_fields); (veritas, veritas_fields)].
Lemma names_apart : forall fs,
  forallb (fun f => negb (String.eqb (f_name f) "type") && negb (String.eqb (f_name f) "qualifier")) fs = true ->
  forall f, In f fs -> f_name f <> "type" /\ f_name f <> "qualifier".
Proof.
  intros fs B f F. rewrite forallb_forall in B. specialize (B f F).
  rewrite andb_true_iff, !negb_true_iff, !String.eqb_neq in B. exact B.
Qed.
Lemma numeric_pages_roundtrip : forall c fs type qualifier a, In (c, fs) numeric_pages ->
  match pack_page fs type qualifier a with
  | Ok b => below 5 type /\ below 3 qualifier /\ Forall (set_and_fits a) fs /\
            unpack c b =
            Ok (PObj (c_name c) (("peripheral_device", PObj "PeripheralDeviceDataBuffer" [("type", PInt type); ("qualifier", PInt qualifier)])
                           :: given fs a))
  | Err e => e = EInstruct /\ ~ (below 5 type /\ below 3 qualifier /\ Forall (set_and_fits a) fs)
  end.
Proof.
  intros c fs type qualifier a I. cbn [numeric_pages In] in I.
  repeat (destruct I as [E|I];
    [apply pair_equal_spec in E; destruct E as [<- <-]; apply page_roundtrip;
     [repeat constructor|apply nodupb_ok; vm_compute; reflexivity|
      apply names_apart; vm_compute; reflexivity]|]).
  destruct I.
Qed.

(** * Designators made of bytes *)
Definition text_classes : list (Z * (pyclass * string)) :=
  [(0, (vendor_specific_designator, "vendor_specific_identifier")); (7, (md5_designator, "md5_logical_unit_identifier"));
   (8, (scsi_name_designator, "scsi_name_string"))].
Lemma text_roundtrip : forall t c n header id, In (t, (c, n)) text_classes -> bytes_ok id ->
  match pack_text_designator t header id with
  | Ok b => exists attrs, unpack c b = Ok (PObj (c_name c) (attrs ++ [(n, PBytes id)])%list)
  | Err e => e = EInstruct /\
      ~ Forall (set_and_fits (("designator_length", zlen id) :: ("designator_type", t) :: header)) designator_header
  end.
Proof.
  intros t c n header id I O. unfold pack_text_designator, pack_buffer. rewrite pack_fields_spec.
  change (buffer_size designator_header) with 4%nat.
  set (a := ("designator_length", zlen id) :: ("designator_type", t) :: header).
  destruct (packable designator_header a) eqn:K; cbn [bind].
  2: { split; [reflexivity|]. intros F. apply (packable_fits designator_header a ltac:(repeat constructor)) in F. congruence. }
  assert (C : c = designator_text_class (c_name c) [(n, r_bytes 4 announced)]).
  { cbn [text_classes In] in I. repeat (destruct I as [E|I]; [apply pair_equal_spec in E; destruct E as [_ E]; apply pair_equal_spec in E; destruct E as [<- <-]; reflexivity|]). destruct I. }
  rewrite C. cbn [c_name designator_text_class]. exists (given designator_header a).
  unfold unpack. cbn [designator_text_class c_fields c_name].
  pose proof (unpack_packed 4 designator_header a id eq_refl K ltac:(repeat constructor) designator_header (incl_refl _)) as E.
  rewrite E. cbn [app unpack_fields]. unfold r_bytes, announced, plus. cbn [bind].
  change (int_attr "designator_length" (given designator_header a)) with (zlen id).
  replace (slice 4 (Z.to_nat (4 + zlen id)) (image 4 designator_header a ++ id)%list) with id; [reflexivity|].
  unfold slice. rewrite skipn_exactly by apply image_length. symmetry. apply firstn_all2. unfold zlen. lia.
Qed.
Lemma t10_never : forall o header vendor id, bytes_ok vendor -> bytes_ok id -> id <> [] ->
  match pack_t10_designator o header vendor id with
  | Ok b => exists attrs, unpack t10_designator b =
      Ok (PObj "T10VendorIDDesignator"
          (attrs ++ [("t10_vendor_identification", PBytes (strip vendor));
                     ("vendor_specific_identifier", PBytes (firstn (length id - 8) id))])%list) /\ firstn (length id - 8) id <> id
  | Err e => e = EInstruct /\
      ~ (Forall (set_and_fits (("designator_length", zlen id) :: ("designator_type", 1) :: header)) designator_header /\
         (length vendor <= 8)%nat /\ o <> Refuse)
  end.
Proof.
  intros o header vendor id OV OI N. destruct (pack_t10_designator o header vendor id) as [b|e0] eqn:E.
  2: { unfold pack_t10_designator, pack_buffer in E. rewrite pack_fields_spec in E.
    set (a := ("designator_length", zlen id) :: ("designator_type", 1) :: header) in *.
    destruct (packable designator_header a) eqn:K.
    2: { cbn in E. inversion E. split; [reflexivity|]. intros (F & _). apply (packable_fits designator_header a ltac:(repeat constructor)) in F. congruence. }
    cbn [bind] in E. unfold pack_text in E. destruct (Nat.leb_spec (length vendor) 8) as [L|L].
    2: { cbn in E. inversion E. split; [reflexivity|]. intros (_ & F & _). lia. }
    cbn [bind] in E. destruct (length id <=? length id - 8)%nat; [discriminate|].
    destruct o; try discriminate. inversion E. split; [reflexivity|]. intros (_ & _ & F). apply F. reflexivity. }
  destruct (t10_pack o header vendor id b OV OI E) as (l & U). exists l. split; [exact U|].
  intros X. apply (f_equal (@length Z)) in X. rewrite firstn_length in X. destruct id; [contradiction|]. cbn [length] in X. lia.
Qed.
