(** What was packed can be unpacked. *)
From Coq Require Import String ZArith List Bool Lia.
From Verif Require Import Base BaseFacts OsCommon Instruct InstructFacts Command CdbPrimary SpecDevice CdbLemmas
  ResponseLemmas CdbResponseFacts CdbPrimaryFacts Pages SpecLayout LayoutFacts SpecPages PageFacts DesignatorFacts SpecVpd VpdFacts SpecPack.
Import ListNotations.
Local Open Scope string_scope.
Local Open Scope Z_scope.


Lemma bit_at_app : forall a b p, (p / 8 < length a)%nat -> bit_at (a ++ b)%list p = bit_at a p.
Proof. intros a b p H. unfold bit_at, byte_at. rewrite app_nth1 by exact H. reflexivity. Qed.

Lemma read_packed : forall n fs a rest f, separate n fs = true -> packable fs a = true -> In f fs -> required f ->
  read_int (f_signed f) (f_bits f) (image n fs a ++ rest)%list = Ok (attr (f_name f) a).
Proof.
  intros n fs a rest f S P I R. unfold read_int.
  assert (B : forall p, In p (f_bits f) -> (p / 8 < n)%nat).
  { intros p J. apply Nat.div_lt_upper_bound; [lia|]. exact (separate_bits n fs f p S I J). }
  replace (covered (f_bits f) (image n fs a ++ rest)%list) with true.
  2:{ symmetry. unfold covered. apply forallb_forall. intros p J. apply Nat.ltb_lt. rewrite app_length, image_length.
      specialize (B p J). lia. }
  rewrite (map_ext_in _ (bit_at (image n fs a))).
  2:{ intros p J. apply bit_at_app. rewrite image_length. apply B. exact J. }
  rewrite image_read by assumption. f_equal.
  unfold packable in P. rewrite forallb_forall in P. specialize (P f I).
  unfold code, field_value, attr in *. rewrite R in *. destruct (lookup (f_name f) a) as [v|]; [|discriminate].
  cbn [negative] in *. unfold in_range in P. unfold negative.
  assert (W : 0 <= width (f_bits f)) by (unfold width, zlen; lia).
  destruct (f_signed f && (width (f_bits f) mod 8 =? 0)) eqn:G; cbn [andb].
  - apply andb_true_iff in P. rewrite Z.leb_le, Z.ltb_lt in P.
    set (w := width (f_bits f)) in *.
    assert (X : w = 0 \/ 0 < w) by lia. destruct X as [->|X].
    { change (2 ^ (0 - 1)) with 0 in *. lia. }
    assert (E : 2 ^ w = 2 * 2 ^ (w - 1)) by (rewrite <- Z.pow_succ_r by lia; f_equal; lia).
    rewrite E. pose proof (Z.pow_pos_nonneg 2 (w - 1) ltac:(lia) ltac:(lia)) as Q.
    set (h := 2 ^ (w - 1)) in *. destruct (Z.lt_ge_cases v 0) as [V|V].
    + replace (v mod (2 * h)) with (v + 2 * h); [destruct (Z.leb_spec h (v + 2 * h)); lia|].
      apply (Z.mod_unique v (2 * h) (-1)); lia.
    + rewrite Z.mod_small by lia. destruct (Z.leb_spec h v); lia.
  - apply andb_true_iff in P. rewrite Z.leb_le, Z.ltb_lt in P. apply Z.mod_small. lia.
Qed.

Lemma unpack_packed : forall n fs a rest, separate n fs = true -> packable fs a = true -> Forall required fs ->
  forall fs', incl fs' fs -> forall k got,
  unpack_fields (map reader_of fs' ++ k)%list got (image n fs a ++ rest)%list =
  unpack_fields k (got ++ given fs' a)%list (image n fs a ++ rest)%list.
Proof.
  intros n fs a rest S P R. induction fs' as [|f fs' IH]; intros L k got.
  - cbn. rewrite app_nil_r. reflexivity.
  - cbn [map app unpack_fields reader_of]. unfold r_int. rewrite read_packed; [|exact S|exact P|apply L; left; reflexivity|].
    2:{ rewrite Forall_forall in R. apply R. apply L. left. reflexivity. }
    cbn [bind]. rewrite IH by (intros x X; apply L; right; exact X). cbn [given map]. rewrite <- app_assoc. reflexivity.
Qed.

(** Fields that do not overlap. *)
Lemma in_list_max : forall x l, In x l -> (x <= list_max l)%nat.
Proof.
  intros x l I. pose proof (proj1 (list_max_le l (list_max l)) (le_n _)) as F. rewrite Forall_forall in F. apply F. exact I.
Qed.
Lemma nodupb_complete : forall l, NoDup l -> nodupb l = true.
Proof.
  intros l N. induction N as [|x l H N IH]; [reflexivity|]. cbn [nodupb]. rewrite IH, andb_true_r. apply negb_true_iff.
  destruct (existsb (Nat.eqb x) l) eqn:E; [|reflexivity]. apply existsb_exists in E. destruct E as (y & Y & E).
  apply Nat.eqb_eq in E. subst. contradiction.
Qed.
Lemma separate_all : forall fs, disjoint_fields fs -> separate (buffer_size fs) fs = true.
Proof.
  intros fs N. unfold separate. rewrite nodupb_complete by exact N. cbn [andb]. apply forallb_forall. intros p I.
  apply in_flat_map in I. destruct I as (f & F & I). apply Nat.ltb_lt. unfold buffer_size.
  assert (A : (Datatypes.S (p / 8) <= list_max (map (fun p => Datatypes.S (p / 8)) (f_bits f)))%nat)
    by (apply in_list_max; apply in_map_iff; exists p; auto).
  assert (B : (list_max (map (fun p => Datatypes.S (p / 8)) (f_bits f)) <=
               list_max (map (fun f => list_max (map (fun p => Datatypes.S (p / 8)) (f_bits f))) fs))%nat)
    by (apply in_list_max; apply in_map_iff; exists f; auto).
  pose proof (Nat.div_mod p 8 ltac:(lia)). pose proof (Nat.mod_upper_bound p 8 ltac:(lia)). lia.
Qed.

Lemma in_range_fits : forall f v, in_range (f_signed f) (f_bits f) v = true <-> fits f v.
Proof.
  intros f v. unfold in_range, fits, width. destruct (f_signed f && (zlen (f_bits f) mod 8 =? 0));
    rewrite andb_true_iff, Z.leb_le, Z.ltb_lt; reflexivity.
Qed.
Lemma packable_fits : forall fs a, Forall required fs -> (packable fs a = true <-> Forall (set_and_fits a) fs).
Proof.
  intros fs a R. unfold packable. rewrite forallb_forall, Forall_forall. rewrite Forall_forall in R. split; intros H f I.
  - specialize (H f I). unfold field_value in H. rewrite (R f I) in H. unfold set_and_fits.
    destruct (lookup (f_name f) a) as [v|]; [|discriminate]. exists v. split; [reflexivity|]. apply in_range_fits. exact H.
  - destruct (H f I) as (v & E & F). unfold field_value. rewrite (R f I), E. apply in_range_fits. exact F.
Qed.

Lemma roundtrip : forall name fs a, Forall required fs -> disjoint_fields fs ->
  match pack_buffer fs a with
  | Ok b => Forall (set_and_fits a) fs /\ length b = buffer_size fs /\
            unpack (buffer_class name fs) b = Ok (PObj name (given fs a))
  | Err e => e = EInstruct /\ ~ Forall (set_and_fits a) fs
  end.
Proof.
  intros name fs a R N. unfold pack_buffer. rewrite pack_fields_spec. pose proof (packable_fits fs a R) as P.
  destruct (packable fs a) eqn:K.
  - split; [apply P; reflexivity|]. split; [apply image_length|].
    unfold unpack, buffer_class. cbn [c_fields c_name].
    pose proof (unpack_packed (buffer_size fs) fs a [] (separate_all fs N) K R fs (incl_refl _) [] []) as E.
    rewrite !app_nil_r in E. rewrite E. reflexivity.
  - split; [reflexivity|]. intros F. apply P in F. congruence.
Qed.

Lemma page_roundtrip : forall name fs type qualifier a, Forall required fs ->
  disjoint_fields (peripheral_device_fields ++ fs)%list ->
  (forall f, In f fs -> f_name f <> "type" /\ f_name f <> "qualifier") ->
  match pack_page fs type qualifier a with
  | Ok b => below 5 type /\ below 3 qualifier /\ Forall (set_and_fits a) fs /\
            unpack (PyClass name (r_peripheral_device :: map reader_of fs)) b =
            Ok (PObj name (("peripheral_device", PObj "PeripheralDeviceDataBuffer" [("type", PInt type); ("qualifier", PInt qualifier)])
                           :: given fs a))
  | Err e => e = EInstruct /\ ~ (below 5 type /\ below 3 qualifier /\ Forall (set_and_fits a) fs)
  end.
Proof.
  intros name fs type qualifier a R N D. unfold pack_page, pack_buffer. rewrite pack_fields_spec.
  set (all := (peripheral_device_fields ++ fs)%list) in *.
  set (a' := (("type", type) :: ("qualifier", qualifier) :: a)).
  assert (RA : Forall required all) by (subst all; apply Forall_app; split; [repeat constructor|exact R]).
  assert (L : forall f, In f fs -> lookup (f_name f) a' = lookup (f_name f) a).
  { intros f I. destruct (D f I) as [D1 D2]. subst a'. cbn [lookup].
    apply String.eqb_neq in D1. apply String.eqb_neq in D2. rewrite D1, D2. reflexivity. }
  assert (G : given fs a' = given fs a).
  { unfold given. apply map_ext_in. intros f I. unfold attr. rewrite (L f I). reflexivity. }
  assert (Q : Forall (set_and_fits a') all <-> below 5 type /\ below 3 qualifier /\ Forall (set_and_fits a) fs).
  { subst all. rewrite Forall_app. split.
    - intros [H1 H2]. inversion H1 as [|? ? (v & V1 & V2) H3]; subst. inversion H3 as [|? ? (u & U1 & U2) H4]; subst.
      injection V1 as <-. injection U1 as <-. split; [exact V2|]. split; [exact U2|].
      rewrite Forall_forall in *. intros f I. destruct (H2 f I) as (w & W1 & W2). exists w. rewrite <- (L f I). auto.
    - intros (H1 & H2 & H3). split.
      + constructor; [exists type; split; [reflexivity|exact H1]|]. constructor; [exists qualifier; split; [reflexivity|exact H2]|constructor].
      + rewrite Forall_forall in *. intros f I. destruct (H3 f I) as (w & W1 & W2). exists w. rewrite (L f I). auto. }
  pose proof (packable_fits all a' RA) as P.
  destruct (packable all a') eqn:K.
  - destruct Q as [Q _]. destruct (Q (proj1 P eq_refl)) as (Q1 & Q2 & Q3).
    split; [exact Q1|]. split; [exact Q2|]. split; [exact Q3|].
    pose proof (unpack_packed (buffer_size all) all a' [] (separate_all all N) K RA) as E. rewrite app_nil_r in E.
    unfold unpack. cbn [c_fields c_name unpack_fields]. unfold r_peripheral_device at 1. cbn [unpack_fields].
    unfold r_obj, to_end, zlen. rewrite Nat2Z.id, slice_all by lia. cbn [skipn].
    unfold unpack, peripheral_device, buffer_class. cbn [c_fields c_name].
    pose proof (E peripheral_device_fields (incl_appl _ (incl_refl _)) [] []) as E1. rewrite app_nil_r in E1. rewrite E1.
    cbn [bind unpack_fields app].
    match goal with |- context [unpack_fields (map reader_of fs) ?g _] =>
      pose proof (E fs (incl_appr _ (incl_refl _)) [] g) as E2 end.
    rewrite app_nil_r in E2. rewrite E2. cbn [unpack_fields bind]. rewrite G. reflexivity.
  - split; [reflexivity|]. intros F. apply Q in F. apply P in F. congruence.
Qed.

(** * Serial number page *)
Lemma serial_roundtrip : forall type qualifier page_code serial,
  match pack_unit_serial_number type qualifier page_code serial with
  | Ok b => (below 5 type /\ below 3 qualifier /\ below 8 page_code /\ zlen serial <= 255) /\
            unpack unit_serial_number b =
            Ok (PObj "UnitSerialNumberVPDPageBuffer"
                  [("peripheral_device", PObj "PeripheralDeviceDataBuffer" [("type", PInt type); ("qualifier", PInt qualifier)]);
                   ("page_code", PInt page_code); ("page_length", PInt (zlen serial));
                   ("product_serial_number", PBytes (strip serial))])
  | Err e => e = EInstruct /\ ~ (below 5 type /\ below 3 qualifier /\ below 8 page_code /\ zlen serial <= 255)
  end.
Proof.
  intros type qualifier page_code serial. unfold pack_unit_serial_number. rewrite pack_fields_spec.
  fold serial_fields.
  set (a := [("type", type); ("qualifier", qualifier); ("page_code", page_code); ("page_length", zlen serial)]).
  assert (R : Forall required serial_fields) by repeat constructor.
  assert (Z0 : 0 <= zlen serial) by (unfold zlen; lia).
  assert (Q : Forall (set_and_fits a) serial_fields <-> below 5 type /\ below 3 qualifier /\ below 8 page_code /\ zlen serial <= 255).
  { split.
    - intros H. inversion H as [|? ? (v1 & V1 & W1) H1]; subst. inversion H1 as [|? ? (v2 & V2 & W2) H2]; subst.
      inversion H2 as [|? ? (v3 & V3 & W3) H3]; subst. inversion H3 as [|? ? (v4 & V4 & W4) H4]; subst.
      injection V1 as <-. injection V2 as <-. injection V3 as <-. injection V4 as <-.
      change (0 <= zlen serial < 256) in W4. split; [exact W1|]. split; [exact W2|]. split; [exact W3|]. lia.
    - intros (H1 & H2 & H3 & H4).
      constructor; [exists type; split; [reflexivity|exact H1]|]. constructor; [exists qualifier; split; [reflexivity|exact H2]|].
      constructor; [exists page_code; split; [reflexivity|exact H3]|]. constructor; [|constructor].
      exists (zlen serial). split; [reflexivity|]. change (0 <= zlen serial < 256). lia. }
  pose proof (packable_fits serial_fields a R) as P. destruct (packable serial_fields a) eqn:K; cbn [bind].
  - split; [apply Q, P; reflexivity|].
    pose proof (unpack_packed 4 serial_fields a serial eq_refl K R) as E.
    set (b := (image 4 serial_fields a ++ serial)%list) in *.
    unfold unpack, unit_serial_number. cbn [c_fields c_name].
    change (r_peripheral_device :: ?x :: ?y :: ?k) with
      (r_peripheral_device :: (map reader_of [U "page_code" (byte_of 1); U "page_length" (byte_of 3)] ++ k)%list).
    set (two := [U "page_code" (byte_of 1); U "page_length" (byte_of 3)]) in *.
    unfold r_peripheral_device at 1. cbn [unpack_fields].
    unfold r_obj, to_end. unfold zlen at 1. rewrite Nat2Z.id, slice_all by lia. change (skipn 0 b) with b.
    unfold unpack, peripheral_device, buffer_class. cbn [c_fields c_name].
    pose proof (E peripheral_device_fields (incl_appl _ (incl_refl _)) [] []) as E1. rewrite app_nil_r in E1. rewrite E1.
    cbn [bind]. change (unpack_fields [] ?g b) with (@Ok attrs g). cbn [bind]. rewrite E by apply (incl_appr _ (incl_refl _)).
    cbn [unpack_fields]. unfold r_str, plus. cbn [bind].
    change (int_attr "page_length" _) with (zlen serial).
    replace (slice 4 (Z.to_nat (4 + zlen serial)) b) with serial; [reflexivity|].
    subst b. unfold slice. rewrite skipn_exactly by apply image_length. symmetry. apply firstn_all2. unfold zlen. lia.
  - split; [reflexivity|]. intros F. apply Q in F. apply P in F. congruence.
Qed.
