(** INQUIRY pages: designation descriptors with texts, and the page. *)
From Coq Require Import String ZArith List Bool Lia.
From Verif Require Import Base BaseFacts OsCommon Instruct InstructFacts Command CdbPrimary SpecDevice CdbLemmas
  ResponseLemmas CdbResponseFacts Pages SpecLayout LayoutFacts SpecPages PageFacts.
Import ListNotations.
Local Open Scope string_scope.
Local Open Scope Z_scope.

(** * Identifiers that are texts *)
Lemma slice_id : forall d t id rest, slice 4 (Z.to_nat (4 + zlen id)) (raw_descriptor d t id ++ rest)%list = id.
Proof.
  intros. unfold slice, zlen. replace (Z.to_nat (4 + Z.of_nat (length id)) - 4)%nat with (length id) by lia.
  cbn [raw_descriptor app skipn]. rewrite firstn_app, firstn_all, Nat.sub_diag. cbn. apply app_nil_r.
Qed.
Lemma rev_repeat : forall (x : Z) n, rev (repeat x n) = repeat x n.
Proof.
  intros x n. induction n as [|n IH]; [reflexivity|]. cbn [repeat rev]. rewrite IH.
  clear. induction n as [|n IH]; [reflexivity|]. cbn [repeat app]. f_equal. exact IH.
Qed.
Lemma drop_repeat : forall n l, drop_pad (repeat 32 n ++ l)%list = drop_pad l.
Proof. induction n as [|n IH]; intros l; [reflexivity|]. cbn. apply IH. Qed.
Lemma strip_padded : forall s n, ~ ends_in_padding s -> strip (s ++ repeat 32 n)%list = s.
Proof.
  intros s n H. unfold strip. rewrite rev_app_distr, rev_repeat, drop_repeat. destruct (rev s) as [|b r] eqn:V.
  - cbn. rewrite <- (rev_involutive s), V. reflexivity.
  - cbn. destruct (is_pad b) eqn:P.
    + exfalso. apply H. exists (rev r), b. split.
      * rewrite <- (rev_involutive s), V. reflexivity.
      * unfold is_pad in P. apply orb_true_iff in P. rewrite !Z.eqb_eq in P. exact P.
    + change (rev (b :: r) = s). rewrite <- V. apply rev_involutive.
Qed.
Lemma strip_same : forall s, ~ ends_in_padding s -> strip s = s.
Proof. intros s H. rewrite <- (strip_padded s 0 H) at 2. cbn [repeat]. rewrite app_nil_r. reflexivity. Qed.

Lemma len_attr : forall d t n, int_attr "designator_length" (header_attrs d t n) = n.
Proof. reflexivity. Qed.
Lemma len_attr_app : forall d t n k, int_attr "designator_length" (header_attrs d t n ++ k)%list = n.
Proof. reflexivity. Qed.
Lemma text_element : forall d rest, designator_ok d -> bytes_ok rest -> numeric (d_id d) = false ->
  designator_element (descriptor_bytes d ++ rest)%list = Ok (designator_object d, length (descriptor_bytes d)).
Proof.
  intros d rest D R N. unfold designator_element. rewrite determine_spec by assumption. cbn [bind].
  destruct d as [d i], D as [I K]. cbn [d_info d_id] in *.
  pose proof (type_code_below i K) as T. destruct K as (O & L & K).
  unfold descriptor_bytes. cbn [d_info d_id].
  assert (H : forall k, unpack_fields (map reader_of designator_header ++ k)%list [] (raw_descriptor d (type_code i) (id_bytes i) ++ rest)%list =
      unpack_fields k (header_attrs d (type_code i) (zlen (id_bytes i))) (raw_descriptor d (type_code i) (id_bytes i) ++ rest)%list).
  { intros k. pose proof (unpack_header [] [] k d (type_code i) (id_bytes i) rest eq_refl I T O L R ltac:(cbn; lia)) as H.
    rewrite app_nil_r in H. exact H. }
  assert (S4 := slice_id d (type_code i) (id_bytes i) rest).
  rewrite raw_length.
  assert (Z4 : Z.to_nat (4 + zlen (id_bytes i)) = (4 + length (id_bytes i))%nat) by (unfold zlen; lia).
  destruct i; try discriminate N; cbn [kind_of];
    unfold unpack, vendor_specific_designator, t10_designator, md5_designator, scsi_name_designator, reserved_designator,
      designator_text_class; cbn [c_fields c_name]; rewrite H;
    cbn [unpack_fields]; unfold r_bytes, r_str, announced, plus, upto.
  - rewrite len_attr. cbn [bind]. cbn [id_bytes type_code] in *. rewrite S4, len_attr_app, Z4.
    replace (Nat.max 4 (4 + length id)) with (4 + length id)%nat by lia. reflexivity.
  - cbn [bind]. rewrite len_attr_app. cbn [bind]. rewrite <- app_assoc, len_attr_app.
    destruct K as [K1 K2]. unfold zlen in K1.
    assert (A : slice 4 (Z.to_nat 12) (raw_descriptor d (type_code (T10 vendor id)) (id_bytes (T10 vendor id)) ++ rest)%list =
                (vendor ++ repeat 32 (8 - length vendor))%list).
    { unfold slice. cbn [raw_descriptor app skipn id_bytes]. change (Z.to_nat 12 - 4)%nat with 8%nat.
      rewrite app_assoc, <- app_assoc. apply (slice0 8). rewrite app_length, repeat_length. lia. }
    assert (B : slice 12 (Z.to_nat (4 + zlen (id_bytes (T10 vendor id))))
                  (raw_descriptor d (type_code (T10 vendor id)) (id_bytes (T10 vendor id)) ++ rest)%list = id).
    { rewrite Z4. cbn [id_bytes]. unfold slice. rewrite !app_length, repeat_length.
      replace (4 + (length vendor + (8 - length vendor + length id)) - 12)%nat with (length id) by lia.
      change (skipn 12 _) with (skipn 8 ((vendor ++ repeat 32 (8 - length vendor) ++ id) ++ rest)%list).
      rewrite (app_assoc vendor), <- app_assoc.
      rewrite (skipn_exactly 8) by (rewrite app_length, repeat_length; lia).
      rewrite firstn_app, firstn_all, Nat.sub_diag. cbn. apply app_nil_r. }
    rewrite A, B, strip_padded by exact K2. rewrite Z4.
    replace (Nat.max 12 (4 + length (id_bytes (T10 vendor id)))) with (4 + length (id_bytes (T10 vendor id)))%nat
      by (cbn [id_bytes]; rewrite !app_length, repeat_length; lia).
    reflexivity.
  - rewrite len_attr. cbn [bind]. cbn [id_bytes type_code] in *. rewrite S4, len_attr_app, Z4.
    replace (Nat.max 4 (4 + length id)) with (4 + length id)%nat by lia. reflexivity.
  - rewrite len_attr. cbn [bind]. cbn [id_bytes type_code] in *. rewrite S4, len_attr_app, Z4.
    replace (Nat.max 4 (4 + length name)) with (4 + length name)%nat by lia. reflexivity.
  - rewrite len_attr. cbn [bind]. cbn [id_bytes type_code] in *. rewrite S4, len_attr_app, Z4, strip_same by tauto.
    replace (Nat.max 4 (4 + length id)) with (4 + length id)%nat by lia. reflexivity.
Qed.

Lemma designator_decodes : forall d, designator_ok d -> decodes descriptor_bytes designator_object designator_element d.
Proof.
  intros d D. split; [discriminate|]. split.
  - destruct D as [I K]. apply raw_ok; [exact I|apply type_code_below; exact K|apply K|apply K].
  - intros rest R. destruct (numeric (d_id d)) eqn:N; [apply numeric_element|apply text_element]; assumption.
Qed.

(** * The page *)
Lemma page_head : forall type qualifier ds rest, below 5 type -> below 3 qualifier -> bytes_ok (ds ++ rest)%list -> zlen ds < 65536 ->
  forall k,
  unpack_fields (r_peripheral_device :: ("page_code", r_uint (byte_of 1)) :: ("page_length", r_uint (bytes_of 2 4)) :: k) []
    (page_83 type qualifier ds ++ rest)%list =
  unpack_fields k [("peripheral_device", PObj "PeripheralDeviceDataBuffer" [("type", PInt type); ("qualifier", PInt qualifier)]);
     ("page_code", PInt 131); ("page_length", PInt (zlen ds))] (page_83 type qualifier ds ++ rest)%list.
Proof.
  unfold below. intros type qualifier ds rest T Q B L k.
  assert (O : bytes_ok (page_83 type qualifier ds ++ rest)%list).
  { unfold page_83. cbn [app]. constructor; [unfold byte_ok; lia|]. constructor; [unfold byte_ok; lia|].
    rewrite <- app_assoc. apply bytes_ok_app. split; [apply be_bytes_ok|exact B]. }
  assert (LE : (4 <= length (page_83 type qualifier ds ++ rest))%nat) by (unfold page_83; rewrite app_length; cbn; lia).
  cbn [unpack_fields]. unfold r_peripheral_device at 1. cbn [unpack_fields]. unfold r_obj, to_end, peripheral_device.
  assert (S : slice 0 (Z.to_nat (zlen (page_83 type qualifier ds ++ rest)%list)) (page_83 type qualifier ds ++ rest)%list =
              (page_83 type qualifier ds ++ rest)%list).
  { unfold slice. cbn [skipn]. apply firstn_all2. unfold zlen. lia. }
  rewrite S. rewrite (unpack_layout_all "PeripheralDeviceDataBuffer" peripheral_device_fields peripheral_layout) by (try reflexivity; exact O).
  replace (layout_end peripheral_layout <=? _)%nat with true by (symmetry; apply Nat.leb_le; cbn; cbn in LE; lia).
  cbn [bind app].
  unfold r_uint, r_int. rewrite byte_of_bytes, !read_bytes by (try exact O; lia). do 2 too_short. cbn [bind app].
  assert (P : layout_values peripheral_layout (page_83 type qualifier ds ++ rest)%list = [("type", PInt type); ("qualifier", PInt qualifier)]).
  { unfold layout_values, peripheral_layout. cbn [map fst snd loc_value]. unfold bf. cbn [page_83 app byte_at nth].
    change (2 ^ Z.of_nat 0) with 1. change (2 ^ Z.of_nat 5) with 32. change (2 ^ Z.of_nat 3) with 8.
    change (2 ^ 5) with 32 in T. change (2 ^ 3) with 8 in Q.
    repeat (f_equal; try (Z.to_euclidean_division_equations; lia)). }
  rewrite P. change (ub 1 2 (page_83 type qualifier ds ++ rest)%list) with 131.
  assert (U2 : ub 2 4 (page_83 type qualifier ds ++ rest)%list = zlen ds).
  { replace (page_83 type qualifier ds ++ rest)%list
      with ([type + 32 * qualifier; 131] ++ be_bytes 2 (zlen ds) ++ ds ++ rest)%list
      by (unfold page_83; cbn [app]; rewrite <- app_assoc; reflexivity).
    rewrite (ub_in 2 4 [_; _] (be_bytes 2 (zlen ds))) by (try reflexivity; apply be_bytes_length).
    apply be_val_be_bytes_small. unfold zlen in *. change (256 ^ Z.of_nat 2) with 65536. lia. }
  rewrite U2. reflexivity.
Qed.
Lemma page_descriptors : forall type qualifier ds rest,
  slice 4 (Z.to_nat (4 + zlen ds)) (page_83 type qualifier ds ++ rest)%list = ds.
Proof.
  intros. unfold page_83, slice, zlen. replace (Z.to_nat (4 + Z.of_nat (length ds)) - 4)%nat with (length ds) by lia.
  cbn [app]. change (skipn 4 (?a :: ?b :: ?l)) with (skipn 2 l). rewrite <- app_assoc.
  rewrite skipn_exactly by apply be_bytes_length. rewrite firstn_app, firstn_all, Nat.sub_diag. cbn. apply app_nil_r.
Qed.

Lemma page_83_spec : forall type qualifier l rest, below 5 type -> below 3 qualifier ->
  Forall designator_ok l -> zlen (flat_map descriptor_bytes l) < 65536 -> bytes_ok rest ->
  unpack device_identification (page_83 type qualifier (flat_map descriptor_bytes l) ++ rest)%list =
  Ok (page_83_object type qualifier (zlen (flat_map descriptor_bytes l)) l).
Proof.
  intros type qualifier l rest T Q F L R. unfold unpack, device_identification. cbn [c_fields c_name].
  assert (D : Forall (decodes descriptor_bytes designator_object designator_element) l)
    by (eapply Forall_impl; [|exact F]; apply designator_decodes).
  rewrite page_head; [|assumption|assumption| |exact L].
  2:{ apply bytes_ok_app. split; [eapply enc_ok; exact D|exact R]. }
  cbn [unpack_fields]. unfold r_list, plus. change (int_attr "page_length" _) with (zlen (flat_map descriptor_bytes l)).
  rewrite page_descriptors, (read_list_enc descriptor_bytes designator_object) by exact D. reflexivity.
Qed.

(** After conforming descriptors, one that fails. *)
Lemma list_all_fails : forall {A} (enc : A -> bytes) obj one l bad fuel e, Forall (decodes enc obj one) l ->
  bytes_ok bad -> bad <> [] -> one bad = Err e -> (length (flat_map enc l ++ bad) <= fuel)%nat ->
  list_all one fuel (flat_map enc l ++ bad)%list = Err e.
Proof.
  intros A enc obj one l bad fuel e F OB NB E. revert fuel. induction F as [|x l (N & O & D) F IH]; intros fuel L.
  - cbn [flat_map app] in *. destruct bad as [|b r]; [contradiction|]. destruct fuel as [|fuel]; [cbn in L; lia|].
    cbn [list_all]. rewrite E. reflexivity.
  - cbn [flat_map] in *. rewrite <- app_assoc in *.
    specialize (D (flat_map enc l ++ bad)%list). rewrite app_length in L.
    assert (O2 : bytes_ok (flat_map enc l ++ bad)%list) by (apply bytes_ok_app; split; [eapply enc_ok; exact F|exact OB]).
    specialize (D O2). destruct (enc x) as [|b r] eqn:X; [contradiction|]. cbn [app length] in *.
    destruct fuel as [|fuel]; [lia|]. cbn [list_all]. rewrite D. cbn [bind skipn].
    rewrite skipn_app, skipn_all, Nat.sub_diag. cbn [skipn app]. rewrite IH by lia. reflexivity.
Qed.

Lemma unknown_fails : forall d type id rest, info_ok d -> below 4 type -> bytes_ok id -> zlen id <= 255 -> bytes_ok rest ->
  unknown_designator type id -> designator_element (raw_descriptor d type id ++ rest)%list = Err EInstruct.
Proof.
  intros d type id rest I T O L R U. unfold designator_element, determine_designator.
  rewrite determine_header by assumption. cbn [bind].
  change (int_attr "designator_type" _) with type. rewrite len_attr.
  destruct U as [[-> U]|[-> (b & r & -> & U)]].
  - cbn [In] in U. assert (E : determine_eui (zlen id) = Err EInstruct).
    { assert (zlen id <> 8 /\ zlen id <> 12 /\ zlen id <> 16) as (A & B & C)
        by (repeat split; intros X; apply U; rewrite X; tauto).
      revert A B C. generalize (zlen id). clear.
      intros z A B C. unfold determine_eui. destruct z as [|p|p]; try reflexivity.
      do 5 (destruct p as [p|p|]; try reflexivity; try congruence). }
    rewrite E. reflexivity.
  - unfold determine_naa. rewrite naa_read by assumption. cbn [bind].
    change (int_attr "naa" _) with (b / 16). cbn [In] in U.
    assert (E : match b / 16 with 2 => Ok (naa2_designator, Upto 12) | 3 => Ok (naa3_designator, Upto 12)
                | 5 => Ok (naa5_designator, Upto 12) | 6 => Ok (naa6_designator, Upto 20) | _ => Err EInstruct end = Err EInstruct).
    { assert (b / 16 <> 2 /\ b / 16 <> 3 /\ b / 16 <> 5 /\ b / 16 <> 6) as (A & B & C & D)
        by (repeat split; intros X; apply U; rewrite X; tauto).
      revert A B C D. generalize (b / 16). clear. intros z A B C D. destruct z as [|p|p]; try reflexivity.
      do 4 (destruct p as [p|p|]; try reflexivity; try congruence). }
    rewrite E. reflexivity.
Qed.

Lemma page_83_unknown : forall type qualifier l d t id after rest, below 5 type -> below 3 qualifier ->
  Forall designator_ok l -> info_ok d -> below 4 t -> bytes_ok id -> zlen id <= 255 -> unknown_designator t id ->
  bytes_ok after -> bytes_ok rest ->
  zlen (flat_map descriptor_bytes l ++ raw_descriptor d t id ++ after)%list < 65536 ->
  unpack device_identification
    (page_83 type qualifier (flat_map descriptor_bytes l ++ raw_descriptor d t id ++ after) ++ rest)%list = Err EInstruct.
Proof.
  intros type qualifier l d t id after rest T Q F I T4 B LI U A R L.
  assert (D : Forall (decodes descriptor_bytes designator_object designator_element) l)
    by (eapply Forall_impl; [|exact F]; apply designator_decodes).
  assert (OK : bytes_ok (raw_descriptor d t id ++ after)%list) by (apply bytes_ok_app; split; [apply raw_ok; assumption|exact A]).
  unfold unpack, device_identification. cbn [c_fields c_name].
  rewrite page_head; [|assumption|assumption| |exact L].
  2:{ apply bytes_ok_app. split; [|exact R]. apply bytes_ok_app. split; [eapply enc_ok; exact D|exact OK]. }
  cbn [unpack_fields]. unfold r_list, plus.
  change (int_attr "page_length" _) with (zlen (flat_map descriptor_bytes l ++ raw_descriptor d t id ++ after)%list).
  rewrite page_descriptors. unfold read_list.
  rewrite (list_all_fails descriptor_bytes designator_object designator_element l _ _ EInstruct D OK);
    [reflexivity|discriminate|apply unknown_fails; assumption|lia].
Qed.
