(** Facts about SpecIdentify.v. *)
From Coq Require Import String ZArith List Bool Lia.
From Verif Require Import Base BaseFacts Gen SpecGen Executer OsCommon Instruct InstructFacts Command CdbPrimary CdbPrimaryFacts CdbPropFacts CdbLemmas ResponseLemmas CdbResponseFacts
  RtpgFacts SpecDevice SpecCdb CdbAllFacts SpecSg SpecDrivers SpecExecute SpecSense SpecPortable SpecReserve ReserveFacts SpecAdaptive AdaptiveFacts
  SpecLayout LayoutFacts SpecPages SpecVpd Pages PageFacts VpdFacts DesignatorFacts SpecDiscover SpecPaths SpecAlua SpecIdentify.
Import ListNotations.
Local Open Scope string_scope.
Local Open Scope list_scope.
Local Open Scope Z_scope.

Lemma text_numeric : forall i, is_text i = negb (numeric i).
Proof. destruct i; reflexivity. Qed.

(** * Designators that are cut *)
Lemma first4 : forall k (x y z w : Z) r, (4 <= k)%nat -> firstn k (x :: y :: z :: w :: r) = x :: y :: z :: w :: firstn (k - 4) r.
Proof. intros k x y z w r L. do 4 (destruct k as [|k]; [lia|]). cbn [firstn Nat.sub]. rewrite Nat.sub_0_r. reflexivity. Qed.
Section Cut.
Context (d : designator) (Ok_d : designator_ok d) (k : nat) (K : (k < length (descriptor_bytes d))%nat).
Let i := d_id d.
Let b := firstn k (descriptor_bytes d).

Lemma cut_ok : bytes_ok b.
Proof.
  apply bytes_ok_firstn. destruct Ok_d as [I J]. apply raw_ok; [exact I|apply type_code_below; exact J|apply J|apply J].
Qed.
Lemma cut_length : length b = k.
Proof. unfold b. rewrite firstn_length. lia. Qed.

Lemma cut_shape : (4 <= k)%nat ->
  b = (d_code_set (d_info d) + 16 * d_protocol (d_info d)) :: (type_code i + 16 * d_association (d_info d) + 128 * d_piv (d_info d)) :: 0 ::
      zlen (id_bytes i) :: firstn (k - 4) (id_bytes i).
Proof.
  intro L. unfold b, descriptor_bytes, raw_descriptor. apply first4. exact L.
Qed.
Lemma cut_header : forall fs l more, agree fs l = true ->
  unpack_fields (map reader_of (designator_header ++ fs) ++ more) [] b =
  if (4 <=? k)%nat && (layout_end l <=? k)%nat
  then unpack_fields more (header_attrs (d_info d) (type_code i) (zlen (id_bytes i)) ++ layout_values l b) b else Err EInstruct.
Proof.
  intros fs l more A.
  assert (A' : agree (designator_header ++ fs) (header_layout ++ l) = true) by (change (agree fs l = true); exact A).
  rewrite (unpack_layout _ _ A') by apply cut_ok.
  assert (Q : layout_end (header_layout ++ l) = Nat.max 4 (layout_end l)) by (unfold layout_end; rewrite map_app, list_max_app; reflexivity).
  rewrite Q, cut_length.
  replace (Nat.max 4 (layout_end l) <=? k)%nat with ((4 <=? k)%nat && (layout_end l <=? k)%nat).
  2:{ destruct (Nat.leb_spec 4 k), (Nat.leb_spec (layout_end l) k), (Nat.leb_spec (Nat.max 4 (layout_end l)) k); try reflexivity; lia. }
  destruct (Nat.leb_spec 4 k) as [L|L]; [|reflexivity]. cbn [andb]. destruct (layout_end l <=? k)%nat; [|reflexivity].
  unfold layout_values. rewrite map_app. cbn [app]. do 2 f_equal.
  change (layout_values header_layout b = header_attrs (d_info d) (type_code i) (zlen (id_bytes i))). rewrite cut_shape by exact L.
  destruct Ok_d as [I J]. pose proof (type_code_below _ J) as T. fold i in T. pose proof (proj1 (proj2 J)) as LI. fold i in LI.
  pose proof (header_values (d_info d) (type_code i) (id_bytes i) [] I T LI) as H. rewrite <- H. unfold layout_values, header_layout, bf, ub, slice.
  reflexivity.
Qed.

Lemma cut_naa : (5 <= k)%nat -> bf 4 4 4 b = bf 4 4 4 (descriptor_bytes d).
Proof. intro L. unfold bf, b. rewrite VpdFacts.byte_at_firstn by lia. reflexivity. Qed.
Lemma determine_cut :
  determine_designator b =
  if (4 <=? k)%nat && (negb (type_code i =? 3) || (5 <=? k)%nat) then Ok (kind_of i) else Err EInstruct.
Proof.
  pose proof (determine_spec d [] Ok_d (Forall_nil _)) as W. rewrite app_nil_r in W. fold i in W.
  destruct Ok_d as [I J]. pose proof (type_code_below _ J) as T. fold i in T, J. pose proof (proj1 J) as O. pose proof (proj1 (proj2 J)) as LI.
  unfold determine_designator in *. pose proof (cut_header [] [] [] eq_refl) as H. rewrite !app_nil_r in H. change (layout_end []) with 0%nat in H. rewrite H.
  pose proof (determine_header (d_info d) (type_code i) (id_bytes i) [] I T O LI (Forall_nil _)) as H2. rewrite app_nil_r in H2.
  change (raw_descriptor (d_info d) (type_code i) (id_bytes i)) with (descriptor_bytes d) in H2. rewrite H2 in W.
  destruct (Nat.leb_spec 4 k) as [L|L]; [|reflexivity]. change (0 <=? k)%nat with true in *. cbn [andb unpack_fields bind] in *. cbn [layout_values map] in *.
  rewrite ?app_nil_r in *.
  destruct (Z.eqb_spec (type_code i) 3) as [E|E]; cbn [negb orb].
  - change (int_attr "designator_type" (header_attrs (d_info d) (type_code i) (zlen (id_bytes i)))) with (type_code i) in *. rewrite E in *.
    unfold determine_naa in *.
    pose proof (cut_header [naa_field] [("naa", Bits 4 4 4)] [] eq_refl) as N. rewrite app_nil_r in N.
    change (map reader_of (designator_header ++ [naa_field])) with (c_fields naa_descriptor) in N. rewrite N. change (layout_end [("naa", Bits 4 4 4)]) with 5%nat.
    replace (4 <=? k)%nat with true by (symmetry; apply Nat.leb_le; exact L). cbn [andb].
    destruct (Nat.leb_spec 5 k) as [L5|L5]; [|reflexivity]. cbn [unpack_fields bind layout_values map fst snd loc_value].
    rewrite cut_naa by exact L5. rewrite <- W. clear W N H H2.
    assert (N : unpack_fields (c_fields naa_descriptor) [] (descriptor_bytes d) =
                Ok (header_attrs (d_info d) (type_code i) (zlen (id_bytes i)) ++ [("naa", PInt (bf 4 4 4 (descriptor_bytes d)))])).
    { rewrite <- E in T. pose proof (unpack_header [naa_field] [("naa", Bits 4 4 4)] [] (d_info d) (type_code i) (id_bytes i) [] eq_refl I T O LI (Forall_nil _)) as N.
      rewrite !app_nil_r in N. change (raw_descriptor (d_info d) (type_code i) (id_bytes i)) with (descriptor_bytes d) in N.
      change (map reader_of (designator_header ++ [naa_field])) with (c_fields naa_descriptor) in N. rewrite N; [reflexivity|].
      change (5 <= length (descriptor_bytes d))%nat. lia. }
    rewrite N. rewrite E. reflexivity.
  - rewrite <- W. change (int_attr "designator_type" (header_attrs (d_info d) (type_code i) (zlen (id_bytes i)))) with (type_code i).
    unfold below in T. change (2 ^ 4) with 16 in T. destruct (type_code i) as [|p|p]; [reflexivity| |reflexivity].
    do 4 (destruct p as [p|p|]; try reflexivity; try congruence).
Qed.

Lemma cut_number : numeric i = true -> designator_element b = Err EInstruct.
Proof.
  intro N. unfold designator_element. rewrite determine_cut.
  destruct ((4 <=? k)%nat && (negb (type_code i =? 3) || (5 <=? k)%nat)) eqn:E; [|reflexivity]. cbn [bind].
  destruct (id_length i N) as [E2 X].
  assert (C : fst (kind_of i) = designator_class (id_class i) (id_fields i)) by (destruct i; try discriminate N; reflexivity).
  destruct (kind_of i) as [c e]. cbn [fst snd] in *. subst c e.
  unfold unpack, designator_class, buffer_class. cbn [c_fields c_name].
  pose proof (cut_header (id_fields i) (id_layout i) [] (id_agree i)) as H. rewrite app_nil_r in H. rewrite H, X.
  unfold descriptor_bytes in K. rewrite raw_length in K. fold i in K.
  replace (4 + length (id_bytes i) <=? k)%nat with false by (symmetry; apply Nat.leb_gt; lia). rewrite andb_false_r. reflexivity.
Qed.
Lemma cut_short : (k < 4)%nat -> designator_element b = Err EInstruct.
Proof.
  intro L. unfold designator_element. rewrite determine_cut. replace (4 <=? k)%nat with false by (symmetry; apply Nat.leb_gt; exact L). reflexivity.
Qed.

Lemma cut_slice : forall a c, (4 <= k)%nat -> (4 <= a)%nat ->
  slice a c b = firstn (c - a) (skipn (a - 4) (firstn (k - 4) (id_bytes i))).
Proof.
  intros a c L A. rewrite cut_shape by exact L. unfold slice. f_equal. do 4 (destruct a as [|a]; [lia|]). cbn [skipn Nat.sub]. rewrite Nat.sub_0_r. reflexivity.
Qed.
Lemma whole_slice : forall n (l : bytes), (length l <= n)%nat -> firstn n l = l.
Proof. intros. apply firstn_all2. assumption. Qed.
Lemma strip_cut : forall n v, ~ ends_in_padding v -> (length v <= 8)%nat -> (n <= 8)%nat ->
  strip (firstn n (v ++ repeat 32 (8 - length v))) = strip (firstn n v).
Proof.
  intros n v P L N. rewrite firstn_app. destruct (Nat.le_gt_cases n (length v)) as [A|A].
  - replace (n - length v)%nat with 0%nat by lia. cbn [firstn]. rewrite app_nil_r. reflexivity.
  - rewrite (whole_slice n v) by lia. rewrite (strip_same v P).
    replace (firstn (n - length v) (repeat 32 (8 - length v))) with (repeat 32 (n - length v)); [apply strip_padded; exact P|].
    replace (8 - length v)%nat with ((n - length v) + (8 - n))%nat by lia. rewrite repeat_app, firstn_app, repeat_length, Nat.sub_diag.
    cbn [firstn]. rewrite app_nil_r, firstn_all2 by (rewrite repeat_length; lia). reflexivity.
Qed.
Lemma cut_text : (4 <= k)%nat -> numeric i = false ->
  exists n, designator_element b = Ok (cut_object (k - 4) d, n) /\ (k <= n)%nat.
Proof.
  intros L N. unfold designator_element. rewrite determine_cut.
  replace (4 <=? k)%nat with true by (symmetry; apply Nat.leb_le; exact L).
  assert (T3 : (type_code i =? 3) = false).
  { destruct Ok_d as [_ (_ & _ & J)]. fold i in J. destruct i; try discriminate N; try reflexivity. cbn [type_code]. apply Z.eqb_neq. lia. }
  rewrite T3. cbn [negb orb andb bind].
  pose proof (cut_header [] []) as H. change (layout_end []) with 0%nat in H.
  assert (H' : forall more, unpack_fields (map reader_of designator_header ++ more) [] b =
    unpack_fields more (header_attrs (d_info d) (type_code i) (zlen (id_bytes i))) b).
  { intro more. specialize (H more eq_refl). rewrite app_nil_r in H. rewrite H.
    replace (4 <=? k)%nat with true by (symmetry; apply Nat.leb_le; exact L). cbn [andb Nat.leb layout_values map]. rewrite app_nil_r. reflexivity. }
  clear H. pose proof K as K'. unfold descriptor_bytes in K'. rewrite raw_length in K'. fold i in K'.
  assert (Z4 : Z.to_nat (4 + zlen (id_bytes i)) = (4 + length (id_bytes i))%nat) by (unfold zlen; lia).
  assert (S4 : slice 4 (4 + length (id_bytes i)) b = firstn (k - 4) (id_bytes i)).
  { rewrite cut_slice by lia. cbn [skipn Nat.sub]. apply whole_slice. rewrite firstn_length. lia. }
  assert (J := Ok_d). destruct J as [_ (_ & _ & J)]. fold i in J. unfold cut_object. fold i.
  destruct i as [id|v id| | | | | | | | | | |id|id|t id] eqn:Ei; try discriminate N; cbn [kind_of];
    unfold unpack, vendor_specific_designator, t10_designator, md5_designator, scsi_name_designator, reserved_designator,
      designator_text_class; cbn [c_fields c_name]; rewrite H';
    cbn [unpack_fields]; unfold r_bytes, r_str, announced, plus, upto; rewrite ?len_attr; cbn [bind]; rewrite ?len_attr_app; rewrite ?Z4.
  - rewrite S4. eexists. split; [reflexivity|]. cbn [id_bytes] in *. lia.
  - cbn [bind]. rewrite <- app_assoc, len_attr_app, Z4. destruct J as [J1 J2]. unfold zlen in J1.
    change (Z.to_nat 12) with 12%nat. rewrite !cut_slice, Ei by lia.
    assert (A : strip (firstn (12 - 4) (skipn (4 - 4) (firstn (k - 4) (id_bytes (T10 v id))))) = strip (firstn (k - 4) v)).
    { change (12 - 4)%nat with 8%nat. change (4 - 4)%nat with 0%nat. cbn [skipn id_bytes]. rewrite firstn_firstn, app_assoc, firstn_app.
      replace (Nat.min 8 (k - 4) - length (v ++ repeat 32%Z (8 - length v)))%nat with 0%nat by (rewrite app_length, repeat_length; lia).
      cbn [firstn]. rewrite app_nil_r, strip_cut by (auto; lia). rewrite Nat.min_comm, <- firstn_firstn, (whole_slice 8 v) by lia. reflexivity. }
    assert (B : firstn (4 + length (id_bytes (T10 v id)) - 12) (skipn (12 - 4) (firstn (k - 4) (id_bytes (T10 v id)))) = firstn (k - 4 - 8) id).
    { cbn [id_bytes] in *. rewrite !app_length, repeat_length in K' |- *.
      replace (12 - 4)%nat with 8%nat by lia. rewrite app_assoc, firstn_app, app_length, repeat_length.
      replace (length v + (8 - length v))%nat with 8%nat by lia.
      destruct (Nat.le_gt_cases 8 (k - 4)) as [A'|A'].
      * rewrite (whole_slice (k - 4)) by (rewrite app_length, repeat_length; lia).
        rewrite (skipn_exactly 8) by (rewrite app_length, repeat_length; lia). apply whole_slice. rewrite firstn_length. lia.
      * replace (k - 4 - 8)%nat with 0%nat by lia. cbn [firstn]. rewrite app_nil_r, skipn_all2 by (rewrite firstn_length; lia). apply firstn_nil. }
    rewrite A, B. exists (Nat.max 12 (4 + length (id_bytes (T10 v id)))). split; [reflexivity|lia].
  - rewrite S4. eexists. split; [reflexivity|]. cbn [id_bytes] in *. lia.
  - rewrite S4. eexists. split; [reflexivity|]. cbn [id_bytes] in *. lia.
  - rewrite S4. eexists. split; [reflexivity|]. cbn [id_bytes] in *. lia.
Qed.
End Cut.

(** * The page *)
Lemma page_any : forall type qualifier n x, below 5 type -> below 3 qualifier -> bytes_ok x -> 0 <= n < 65536 ->
  unpack device_identification ((type + 32 * qualifier) :: 131 :: be_bytes 2 n ++ x) =
  do l <- read_list designator_element (firstn (Z.to_nat n) x);
  Ok (PObj "DeviceIdentificationVPDPageBuffer"
        [device_value type qualifier; ("page_code", PInt 131); ("page_length", PInt n); ("designators_list", PList l)]).
Proof.
  unfold below. intros type qualifier n x T Q B L. set (b := (type + 32 * qualifier) :: 131 :: be_bytes 2 n ++ x).
  assert (O : bytes_ok b).
  { subst b. constructor; [unfold byte_ok; lia|]. constructor; [unfold byte_ok; lia|]. apply bytes_ok_app. split; [apply be_bytes_ok|exact B]. }
  assert (LE : (4 <= length b)%nat) by (subst b; cbn [length]; rewrite app_length, be_bytes_length; lia).
  unfold unpack, device_identification. cbn [c_fields c_name].
  cbn [unpack_fields]. unfold r_peripheral_device at 1. cbn [unpack_fields]. unfold r_obj, to_end, peripheral_device.
  assert (S : slice 0 (Z.to_nat (zlen b)) b = b) by (unfold slice; cbn [skipn]; apply firstn_all2; unfold zlen; lia).
  rewrite S. rewrite (unpack_layout_all "PeripheralDeviceDataBuffer" peripheral_device_fields peripheral_layout) by (try reflexivity; exact O).
  replace (layout_end peripheral_layout <=? _)%nat with true by (symmetry; apply Nat.leb_le; cbn; cbn in LE; lia).
  cbn [bind app].
  unfold r_uint, r_int. rewrite byte_of_bytes, !read_bytes by (try exact O; lia). do 2 too_short. cbn [bind app].
  assert (P : layout_values peripheral_layout b = [("type", PInt type); ("qualifier", PInt qualifier)]).
  { unfold layout_values, peripheral_layout. cbn [map fst snd loc_value]. unfold bf. subst b. cbn [app byte_at nth].
    change (2 ^ Z.of_nat 0) with 1. change (2 ^ Z.of_nat 5) with 32. change (2 ^ Z.of_nat 3) with 8.
    change (2 ^ 5) with 32 in T. change (2 ^ 3) with 8 in Q.
    repeat (f_equal; try (Z.to_euclidean_division_equations; lia)). }
  rewrite P. change (ub 1 2 b) with 131.
  assert (U2 : ub 2 4 b = n).
  { change b with ([type + 32 * qualifier; 131] ++ be_bytes 2 n ++ x).
    rewrite (ub_in 2 4 [_; _] (be_bytes 2 n)) by (try reflexivity; apply be_bytes_length).
    apply be_val_be_bytes_small. change (256 ^ Z.of_nat 2) with 65536. lia. }
  rewrite U2. unfold r_list, plus. cbn [int_attr lookup String.eqb Ascii.eqb Bool.eqb].
  change (int_attr "page_length" _) with n.
  assert (SL : slice 4 (Z.to_nat (4 + n)) b = firstn (Z.to_nat n) x).
  { change b with ([type + 32 * qualifier; 131] ++ be_bytes 2 n ++ x). rewrite app_assoc. unfold slice.
    rewrite skipn_exactly by (rewrite app_length, be_bytes_length; reflexivity). f_equal. lia. }
  rewrite SL. destruct (read_list designator_element _); reflexivity.
Qed.

Lemma list_decodes : forall l, Forall designator_ok l -> Forall (decodes descriptor_bytes designator_object designator_element) l.
Proof. intros l F. eapply Forall_impl; [|exact F]. apply designator_decodes. Qed.
Lemma list_ok : forall l, Forall designator_ok l -> bytes_ok (flat_map descriptor_bytes l).
Proof. intros l F. eapply enc_ok. apply list_decodes. exact F. Qed.
Lemma size_app : forall l r, size_of (l ++ r) = size_of l + size_of r.
Proof. intros. unfold size_of, zlen. rewrite flat_map_app, app_length. lia. Qed.
Lemma size_nonneg : forall l, 0 <= size_of l.
Proof. intro l. unfold size_of, zlen. lia. Qed.

Lemma first_bytes : forall l d rest k, (k <= length (descriptor_bytes d))%nat ->
  firstn (length (flat_map descriptor_bytes l) + k) (flat_map descriptor_bytes (l ++ d :: rest)) =
  flat_map descriptor_bytes l ++ firstn k (descriptor_bytes d).
Proof.
  intros l d rest k K. rewrite flat_map_app. cbn [flat_map]. rewrite firstn_app_2, firstn_app.
  replace (k - length (descriptor_bytes d))%nat with 0%nat by lia. cbn [firstn]. rewrite app_nil_r. reflexivity.
Qed.
Lemma read_one : forall x v n, x <> [] -> designator_element x = Ok (v, n) -> (length x <= n)%nat -> read_list designator_element x = Ok [v].
Proof.
  intros x v n NE E L. unfold read_list. destruct x as [|y x]; [contradiction|]. cbn [length list_all] in *. rewrite E. cbn [bind].
  rewrite skipn_all2 by (cbn [length]; lia). destruct n as [|n]; [lia|]. destruct (length x); reflexivity.
Qed.
Lemma read_bad : forall x e, x <> [] -> designator_element x = Err e -> read_list designator_element x = Err e.
Proof. intros x e NE E. unfold read_list. destruct x as [|y x]; [contradiction|]. cbn [length list_all]. rewrite E. reflexivity. Qed.

(** * What is seen *)
Lemma issued_identify : forall alloc, 0 <= alloc < 2 ^ 16 ->
  exists cdb, issued (Inquiry 1 131 alloc (unpack device_identification)) = Ok (ReadCmd cdb alloc) /\ interpret cdb = Some (OpInquiry 1 131 alloc).
Proof.
  intros alloc A. pose proof (inquiry_spec 1 131 alloc (unpack device_identification)) as S. unfold issued. cbn [constructed].
  destruct (do o <- inquiry 1 131 alloc _; request o) as [k|e] eqn:J.
  - destruct (asks_ok _ _ _ _ _ S eq_refl) as (_ & cdb & -> & X). eauto.
  - exfalso. apply S. lia.
Qed.

(** The objects for the designators that are in so many bytes. *)
Definition list_seen (who : identity) (room : Z) : result (list pyval) :=
  read_list designator_element (firstn (Z.to_nat room) (flat_map descriptor_bytes (i_designators who))).
Definition page_seen (alloc : Z) (who : identity) : result pyval :=
  do l <- list_seen who (alloc - 4); Ok (page_with who l).

Lemma page_seen_spec : forall padded alloc cdb who, identity_ok who -> 4 <= alloc < 2 ^ 16 ->
  seen padded (Inquiry 1 131 alloc (unpack device_identification)) (ReadCmd cdb alloc) (good (firstn (Z.to_nat alloc) (page_of who))) =
  page_seen alloc who.
Proof.
  intros padded alloc cdb who (T & Q & F & L) A. rewrite seen_nice.
  assert (PL : zlen (page_of who) = 4 + size_of (i_designators who)).
  { unfold page_of, page_83, size_of, zlen. cbn [length]. rewrite app_length, be_bytes_length. lia. }
  destruct (got_data padded cdb alloc (page_of who)) as (m & E & M); [lia|pose proof (size_nonneg (i_designators who)); lia|].
  rewrite E. clear E M. cbn [constructed]. unfold inquiry.
  set (ds := flat_map descriptor_bytes (i_designators who)) in *.
  assert (OG : bytes_ok ds) by (apply list_ok; exact F).
  assert (X : firstn (Z.to_nat alloc) (page_of who ++ zeros m) =
    (i_type who + 32 * i_qualifier who) :: 131 :: be_bytes 2 (zlen ds) ++ firstn (Z.to_nat (alloc - 4)) (ds ++ zeros m)).
  { unfold page_of, page_83. fold ds. replace (Z.to_nat alloc) with (S (S (2 + Z.to_nat (alloc - 4)))) by lia. cbn [app]. rewrite !firstn_cons.
    reflexivity. }
  change (unpack device_identification (firstn (Z.to_nat alloc) (page_of who ++ zeros m)) = page_seen alloc who).
  rewrite X, page_any; [|exact T|exact Q|apply bytes_ok_firstn, bytes_ok_app; split; [exact OG|apply zeros_ok]|unfold size_of in L; fold ds in L; unfold zlen in *; lia].
  rewrite firstn_firstn, Nat.min_comm, <- firstn_firstn.
  replace (firstn (Z.to_nat (zlen ds)) (ds ++ zeros m)) with ds.
  2:{ unfold zlen. rewrite Nat2Z.id, firstn_app, firstn_all, Nat.sub_diag. cbn [firstn]. rewrite app_nil_r. reflexivity. }
  unfold page_seen, list_seen. fold ds. destruct (read_list designator_element _); reflexivity.
Qed.

Lemma seen_all : forall alloc who, identity_ok who -> 4 + size_of (i_designators who) <= alloc -> page_seen alloc who = Ok (whole_page who).
Proof.
  intros alloc who (_ & _ & F & _) L. unfold page_seen, list_seen. rewrite firstn_all2 by (unfold size_of, zlen in L; lia).
  rewrite (read_list_enc descriptor_bytes designator_object) by (apply list_decodes; exact F). reflexivity.
Qed.
Lemma seen_part : forall who l d rest k, identity_ok who -> i_designators who = l ++ d :: rest -> (k < length (descriptor_bytes d))%nat ->
  page_seen (4 + size_of l + Z.of_nat k) who =
  do more <- read_list designator_element (firstn k (descriptor_bytes d)); Ok (page_with who (map designator_object l ++ more)).
Proof.
  intros who l d rest k (_ & _ & F & _) E K. unfold page_seen, list_seen. rewrite E in F |- *. apply Forall_app in F. destruct F as [Fl Fd].
  inversion Fd as [|? ? D Fr]; subst.
  replace (Z.to_nat (4 + size_of l + Z.of_nat k - 4)) with (length (flat_map descriptor_bytes l) + k)%nat by (unfold size_of, zlen; lia).
  rewrite first_bytes by lia. rewrite (read_list_app descriptor_bytes designator_object) by (try (apply list_decodes; exact Fl); apply cut_ok; exact D).
  destruct (read_list designator_element (firstn k (descriptor_bytes d))); reflexivity.
Qed.
Lemma seen_missing : forall who l rest, identity_ok who -> i_designators who = l ++ rest ->
  page_seen (4 + size_of l) who = Ok (page_with who (map designator_object l)).
Proof.
  intros who l [|d rest] W E.
  - rewrite app_nil_r in E. rewrite seen_all by (auto; rewrite E; lia). unfold whole_page. rewrite E. reflexivity.
  - pose proof (seen_part who l d rest 0 W E) as X. rewrite Z.add_0_r in X. rewrite X by (cbn; lia). cbn. rewrite app_nil_r. reflexivity.
Qed.
Lemma nonempty : forall k d, (0 < k)%nat -> firstn k (descriptor_bytes d) <> [].
Proof. intros [|k] d L; [lia|]. discriminate. Qed.
Lemma in_designators : forall who l d rest, identity_ok who -> i_designators who = l ++ d :: rest -> designator_ok d.
Proof. intros who l d rest (_ & _ & F & _) E. rewrite E in F. apply Forall_app in F. destruct F as [_ F]. inversion F. assumption. Qed.
Lemma seen_number : forall who l d rest k, identity_ok who -> i_designators who = l ++ d :: rest -> (0 < k < length (descriptor_bytes d))%nat ->
  is_text (d_id d) = false \/ (k < 4)%nat -> page_seen (4 + size_of l + Z.of_nat k) who = Err EInstruct.
Proof.
  intros who l d rest k W E K C. rewrite (seen_part who l d rest k W E) by lia. pose proof (in_designators _ _ _ _ W E) as D.
  rewrite (read_bad _ EInstruct); [reflexivity|apply nonempty; lia|]. destruct C as [C|C].
  - apply cut_number; [exact D|lia|]. rewrite text_numeric in C. apply negb_false_iff. exact C.
  - apply cut_short; [exact D|lia|exact C].
Qed.
Lemma seen_text : forall who l d rest k, identity_ok who -> i_designators who = l ++ d :: rest -> (4 <= k < length (descriptor_bytes d))%nat ->
  is_text (d_id d) = true -> page_seen (4 + size_of l + Z.of_nat k) who = Ok (page_with who (map designator_object l ++ [cut_object (k - 4) d])).
Proof.
  intros who l d rest k W E K C. rewrite (seen_part who l d rest k W E) by lia. pose proof (in_designators _ _ _ _ W E) as D.
  destruct (cut_text d D k (proj2 K) (proj1 K)) as (n & X & LN).
  { rewrite text_numeric in C. apply negb_true_iff in C. exact C. }
  rewrite (read_one _ _ n (nonempty k d ltac:(lia)) X); [reflexivity|]. rewrite firstn_length. lia.
Qed.

(** * Telling designators apart *)
Definition number (name : string) (l : attrs) : Z := match lookup name l with Some (PInt n) => n | _ => 0 end.
Definition bytes_in (name : string) (l : attrs) : bytes := match lookup name l with Some (PBytes b) => b | _ => [] end.
(** The designator of an object. *)
Definition of_object (v : pyval) : option designator :=
  match v with
  | PObj c l =>
      let info := DesignatorInfo (number "code_set" l) (number "protocol_identifier" l) (number "association" l) (number "piv" l) in
      let n := fun name => number name l in
      let s := fun name => bytes_in name l in
      let id :=
        if (c =? "VendorSpecificDesignator")%string then Some (VendorSpecific (s "vendor_specific_identifier"))
        else if (c =? "T10VendorIDDesignator")%string then Some (T10 (s "t10_vendor_identification") (s "vendor_specific_identifier"))
        else if (c =? "EUI64_Designator")%string then Some (Eui64 (n "ieee_company") (n "vendor_specific_extension_identifer"))
        else if (c =? "EUI64_12Byte_Designator")%string
             then Some (Eui64_12 (n "ieee_company") (n "vendor_specific_extension_identifer") (n "directory_id"))
        else if (c =? "EUI64_16Byte_Designator")%string
             then Some (Eui64_16 (n "identifier_extension") (n "ieee_company") (n "vendor_specific_extension_identifer"))
        else if (c =? "NAA_IEEE_Extended_Designator")%string
             then Some (NaaExtended (n "vendor_specific_identifier_a") (n "ieee_company") (n "vendor_specific_identifier_b"))
        else if (c =? "NAA_Locally_Assigned_Designator")%string then Some (NaaLocal (n "locally_administered_value"))
        else if (c =? "NAA_IEEE_Registered_Designator")%string
             then Some (NaaRegistered (n "ieee_company_id") (n "vendor_specific_identifier"))
        else if (c =? "NAA_IEEE_Registered_Extended_Designator")%string
             then Some (NaaRegisteredExtended (n "ieee_company_id") (n "vendor_specific_identifier") (n "vendor_specific_identifier_extension"))
        else if (c =? "RelativeTargetPortDesignator")%string then Some (RelativePort (n "relative_target_port_identifier"))
        else if (c =? "TargetPortGroupDesignator")%string then Some (SpecPages.PortGroup (n "target_port_group"))
        else if (c =? "LogicalUnitGroupDesignator")%string then Some (UnitGroup (n "logical_unit_group"))
        else if (c =? "MD5LogicalUnitDesignator")%string then Some (Md5 (s "md5_logical_unit_identifier"))
        else if (c =? "SCSINameDesignator")%string then Some (ScsiName (s "scsi_name_string"))
        else if (c =? "Reserved_Designator")%string then Some (ReservedType (n "designator_type") (s "desginator"))
        else None in
      match id with Some id => Some (Designator info id) | None => None end
  | _ => None
  end.
Lemma of_object_spec : forall d, of_object (designator_object d) = Some d.
Proof. intros [[a b c e] i]. destruct i; reflexivity. Qed.
Lemma object_injective : forall d e, designator_object d = designator_object e -> d = e.
Proof. intros d e H. apply (f_equal of_object) in H. rewrite !of_object_spec in H. injection H as <-. reflexivity. Qed.
Lemma objects_injective : forall l m, map designator_object l = map designator_object m -> l = m.
Proof.
  induction l as [|d l IH]; intros [|e m] H; try discriminate H; [reflexivity|]. cbn [map] in H. f_equal.
  - apply object_injective. apply (f_equal (hd PNone)) in H. exact H.
  - apply IH. apply (f_equal (@tl pyval)) in H. exact H.
Qed.
Definition page_parts (v : pyval) : option (pyval * pyval) :=
  match v with
  | PObj _ l => match lookup "peripheral_device" l, lookup "designators_list" l with Some a, Some b => Some (a, b) | _, _ => None end
  | _ => None
  end.
Lemma whole_injective : forall a b, whole_page a = whole_page b -> a = b.
Proof.
  intros [t1 q1 l1] [t2 q2 l2] H. apply (f_equal page_parts) in H.
  change (Some (PObj "PeripheralDeviceDataBuffer" [("type", PInt t1); ("qualifier", PInt q1)], PList (map designator_object l1)) =
          Some (PObj "PeripheralDeviceDataBuffer" [("type", PInt t2); ("qualifier", PInt q2)], PList (map designator_object l2))) in H.
  injection H as -> -> H. apply objects_injective in H. subst. reflexivity.
Qed.
Lemma in_objects : forall d l, In (designator_object d) (map designator_object l) <-> In d l.
Proof.
  intros d l. split; [|apply in_map]. intro H. apply in_map_iff in H. destruct H as (e & E & H). apply object_injective in E. subst. exact H.
Qed.

(** * Runs *)
Section Runs.
Context (T : Type) (tgt : target T) (who : T -> identity) (next : T -> T) (D : identifies tgt who next).

Lemma one_does : forall padded alloc t p t' r, 4 <= alloc < 2 ^ 16 ->
  does tgt padded (next t) (p (page_seen alloc (who t))) t' r -> does tgt padded t (Do (Inquiry 1 131 alloc (unpack device_identification)) p) t' r.
Proof.
  intros padded alloc t p t' r A X. destruct (issued_identify alloc ltac:(lia)) as (cdb & J & C).
  eapply does_seen; [exact Logic.I|exact J|cbn [moderate]; lia|exact (id_answer _ _ _ D t cdb [] alloc C)|apply ordinary_good| |exact X].
  apply page_seen_spec; [apply (id_conforms _ _ _ D)|lia].
Qed.
Lemma finish_does : forall padded t r, does tgt padded t (finish r) t r.
Proof. intros padded t [v|e]; constructor. Qed.
Lemma identify_does : forall padded alloc t, 4 <= alloc < 2 ^ 16 -> does tgt padded t (identify alloc) (next t) (page_seen alloc (who t)).
Proof. intros padded alloc t A. unfold identify. apply one_does; [exact A|apply finish_does]. Qed.
Lemma all_does : forall padded t, size_of (i_designators (who t)) <= 65531 ->
  does tgt padded t identify_all (next (next t)) (page_seen (4 + size_of (i_designators (who t))) (who (next t))).
Proof.
  intros padded t L. unfold identify_all. apply one_does; [lia|].
  pose proof (seen_missing (who t) [] (i_designators (who t)) (id_conforms _ _ _ D t) eq_refl) as X. change (4 + size_of []) with 4 in X. rewrite X.
  change (attribute_of "page_length" (page_with (who t) (map designator_object []))) with (Some (PInt (size_of (i_designators (who t))))). cbv iota.
  apply identify_does. pose proof (size_nonneg (i_designators (who t))). lia.
Qed.
Context (sys : system T) (F : one_of_four sys).
Lemma identify_run : forall alloc t s, idle sys s t -> 4 <= alloc < 2 ^ 16 ->
  exists s', sync_wait_ends (coroutine (os_of sys tgt) (identify alloc)) s s' (shown (page_seen alloc (who t))) /\ idle sys s' (next t).
Proof. intros alloc t s Hi A. exact (adaptive _ _ _ _ _ _ _ _ F (identify_does (pads sys) alloc t A) Hi). Qed.
Lemma all_run : forall t s, idle sys s t -> size_of (i_designators (who t)) <= 65531 ->
  exists s', sync_wait_ends (coroutine (os_of sys tgt) identify_all) s s'
    (shown (page_seen (4 + size_of (i_designators (who t))) (who (next t)))) /\ idle sys s' (next (next t)).
Proof. intros t s Hi A. exact (adaptive _ _ _ _ _ _ _ _ F (all_does (pads sys) t A) Hi). Qed.
Lemma identify_only : forall alloc t s s' v, idle sys s t -> 4 <= alloc < 2 ^ 16 ->
  sync_wait_ends (coroutine (os_of sys tgt) (identify alloc)) s s' (shown (Ok v)) -> page_seen alloc (who t) = Ok v.
Proof.
  intros alloc t s s' v Hi A R. destruct (adaptive_only _ _ _ _ _ _ _ _ _ _ F (identify_does (pads sys) alloc t A) Hi R) as [E _].
  destruct (page_seen alloc (who t)) as [w|e]; cbn [shown] in E; [|discriminate E].
  assert (V : v = w) by (injection E as E; apply (f_equal python_value) in E; rewrite !python_yielded in E; exact E). subst w. reflexivity.
Qed.
End Runs.

(** * Where a page can be cut *)
Lemma size_one : forall d, size_of [d] = zlen (descriptor_bytes d).
Proof. intro d. unfold size_of. cbn [flat_map]. rewrite app_nil_r. reflexivity. Qed.
Lemma size_cons : forall d l, size_of (d :: l) = size_of [d] + size_of l.
Proof. intros d l. exact (size_app [d] l). Qed.
Lemma every_cut : forall l alloc, 4 <= alloc < 4 + size_of l ->
  exists a d b k, l = a ++ d :: b /\ alloc = 4 + size_of a + k /\ 0 <= k < size_of [d].
Proof.
  induction l as [|d l IH]; intros alloc A; [change (size_of []) with 0 in A; lia|]. rewrite size_cons in A.
  destruct (Z.le_gt_cases (4 + size_of [d]) alloc) as [L|L].
  - destruct (IH (alloc - size_of [d])) as (a & e & b & k & -> & E & K); [lia|]. exists (d :: a), e, b, k. split; [reflexivity|]. rewrite size_cons. lia.
  - exists [], d, l, (alloc - 4). split; [reflexivity|]. change (size_of []) with 0. lia.
Qed.
Lemma map_short : forall l d b, map designator_object l <> map designator_object (l ++ d :: b).
Proof. intros l d b H. apply (f_equal (@length pyval)) in H. rewrite !map_length, app_length in H. cbn [length] in H. lia. Qed.
Lemma page_with_injective : forall who l m, page_with who l = page_with who m -> l = m.
Proof.
  intros who l m H. apply (f_equal page_parts) in H. change (Some (snd (device_value (i_type who) (i_qualifier who)), PList l) =
    Some (snd (device_value (i_type who) (i_qualifier who)), PList m)) in H. injection H as H. exact H.
Qed.
Lemma shorter : forall n (l : bytes), (n < length l)%nat -> firstn n l <> l.
Proof. intros n l L H. apply (f_equal (@length Z)) in H. rewrite firstn_length in H. lia. Qed.
Lemma strip_length : forall l, (length (strip l) <= length l)%nat.
Proof.
  intro l. unfold strip. rewrite rev_length. rewrite <- (rev_length l). generalize (rev l). clear.
  induction l as [|x l IH]; [cbn; lia|]. cbn [drop_pad]. destruct (is_pad x); cbn [length]; lia.
Qed.
Definition bytes_of_object (name : string) (v : pyval) : bytes := match v with PObj _ l => bytes_in name l | _ => [] end.
Lemma cut_differs : forall d n, designator_ok d -> is_text (d_id d) = true -> (n < length (id_bytes (d_id d)))%nat ->
  cut_object n d <> designator_object d \/ exists info vendor, d = Designator info (T10 vendor []).
Proof.
  intros [d i] n (_ & _ & _ & V) T L. cbn [d_id] in *. destruct i as [id|v id| | | | | | | | | | |id|id|t id]; try discriminate T; cbn [id_bytes] in L.
  - left. intro H. apply (f_equal (bytes_of_object "vendor_specific_identifier")) in H. exact (shorter n id L H).
  - destruct id as [|x id]; [right; eauto|]. left. intro H. apply (f_equal (bytes_of_object "vendor_specific_identifier")) in H.
    change (firstn (n - 8) (x :: id) = x :: id) in H. revert H. apply shorter. rewrite !app_length, repeat_length in L. cbn [length] in *.
    destruct V as [V _]. unfold zlen in V.
    lia.
  - left. intro H. apply (f_equal (bytes_of_object "md5_logical_unit_identifier")) in H. exact (shorter n id L H).
  - left. intro H. apply (f_equal (bytes_of_object "scsi_name_string")) in H. exact (shorter n id L H).
  - left. intro H. apply (f_equal (bytes_of_object "desginator")) in H. change (strip (firstn n id) = id) in H.
    apply (f_equal (@length Z)) in H. pose proof (strip_length (firstn n id)) as X. rewrite firstn_length in X. lia.
Qed.
Lemma told : forall alloc who v, identity_ok who -> 4 <= alloc -> page_seen alloc who = Ok v ->
  exists n, attribute_of "page_length" v = Some (PInt n) /\ (4 + n <= alloc -> v = whole_page who) /\
    (alloc < 4 + n -> v <> whole_page who \/ exists info vendor, In (Designator info (T10 vendor [])) (i_designators who)).
Proof.
  intros alloc who v W A E. exists (size_of (i_designators who)).
  destruct (Z.le_gt_cases (4 + size_of (i_designators who)) alloc) as [L|L].
  - rewrite seen_all in E by assumption. injection E as <-. split; [reflexivity|]. split; [auto|lia].
  - destruct (every_cut (i_designators who) alloc ltac:(lia)) as (a & d & b & k & G & Ha & K). subst alloc. pose proof K as K'. rewrite size_one in K. unfold zlen in K.
    destruct (Z.eq_dec k 0) as [->|Z0].
    + rewrite Z.add_0_r, (seen_missing who a (d :: b) W G) in E. injection E as <-. split; [reflexivity|]. split; [lia|]. intros _. left. intro H.
      apply page_with_injective in H. rewrite G in H. exact (map_short _ _ _ H).
    + replace k with (Z.of_nat (Z.to_nat k)) in E by lia. destruct (is_text (d_id d)) eqn:T; [destruct (Z.le_gt_cases 4 k) as [K4|K4]|].
      * rewrite (seen_text who a d b (Z.to_nat k) W G) in E by (auto; lia). injection E as <-. split; [reflexivity|]. split; [lia|]. intros _.
        destruct (cut_differs d (Z.to_nat k - 4) (in_designators _ _ _ _ W G) T) as [C|(info & vendor & C)].
        -- unfold descriptor_bytes, raw_descriptor in K. cbn [length] in K. lia.
        -- left. intro H. apply page_with_injective in H. rewrite G, map_app in H. apply app_inv_head in H. cbn [map] in H.
           apply (f_equal (hd PNone)) in H. exact (C H).
        -- right. exists info, vendor. rewrite G, C. apply in_or_app. right. left. reflexivity.
      * rewrite (seen_number who a d b (Z.to_nat k) W G) in E by (try lia; right; lia). discriminate E.
      * rewrite (seen_number who a d b (Z.to_nat k) W G) in E by (try lia; left; exact T). discriminate E.
Qed.
