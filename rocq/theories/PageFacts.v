(** INQUIRY pages: designation descriptors. *)
From Coq Require Import String ZArith List Bool Lia.
From Verif Require Import Base BaseFacts OsCommon Instruct InstructFacts Command CdbPrimary SpecDevice CdbLemmas
  ResponseLemmas CdbResponseFacts Pages SpecLayout LayoutFacts SpecPages.
Import ListNotations.
Local Open Scope string_scope.
Local Open Scope Z_scope.

(** * Parts of numbers *)
Lemma be_bytes_app : forall m n v, be_bytes (n + m) v = (be_bytes n (v / 256 ^ Z.of_nat m) ++ be_bytes m v)%list.
Proof.
  induction m as [|m IH]; intros n v.
  - rewrite Nat.add_0_r. cbn. rewrite Z.div_1_r, app_nil_r. reflexivity.
  - replace (n + S m)%nat with (S (n + m)) by lia. cbn [be_bytes]. rewrite IH, <- app_assoc.
    rewrite pow256_S, <- Z.div_div by (pose proof (pow256_pos m); lia). reflexivity.
Qed.
Lemma ub_be : forall n N (p r : bytes) i j, (i <= j)%nat -> (j <= n)%nat ->
  ub (length p + i) (length p + j) (p ++ be_bytes n N ++ r)%list =
  (N / 256 ^ Z.of_nat (n - j)) mod 256 ^ Z.of_nat (j - i).
Proof.
  intros n N p r i j H J.
  replace n with (i + (j - i) + (n - j))%nat at 1 by lia. rewrite !be_bytes_app.
  set (x := be_bytes i _). set (y := be_bytes (j - i) _). set (z := be_bytes (n - j) N).
  replace (p ++ ((x ++ y) ++ z) ++ r)%list with ((p ++ x) ++ y ++ z ++ r)%list by (rewrite <- !app_assoc; reflexivity).
  rewrite ub_in; [|rewrite app_length; subst x; rewrite be_bytes_length; reflexivity|subst y; rewrite be_bytes_length; lia].
  subst y. apply be_val_be_bytes.
Qed.
Lemma byte_at_ub : forall k buf, ub k (S k) buf = byte_at k buf.
Proof.
  intros k buf. unfold ub, slice, byte_at. replace (S k - k)%nat with 1%nat by lia. revert buf.
  induction k as [|k IH]; intros buf; destruct buf as [|x r]; cbn; try lia. apply IH.
Qed.

(** * Headers *)
Definition header_layout : layout :=
  [("code_set", Bits 0 0 4); ("protocol_identifier", Bits 0 4 4); ("designator_type", Bits 1 0 4);
   ("association", Bits 1 4 2); ("piv", Bits 1 7 1); ("reserved", Num 2 3); ("designator_length", Num 3 4)].
Definition header_attrs (d : designator_info) (t n : Z) : attrs :=
  [("code_set", PInt (d_code_set d)); ("protocol_identifier", PInt (d_protocol d)); ("designator_type", PInt t);
   ("association", PInt (d_association d)); ("piv", PInt (d_piv d)); ("reserved", PInt 0); ("designator_length", PInt n)].

Lemma raw_ok : forall d t id, info_ok d -> below 4 t -> bytes_ok id -> zlen id <= 255 -> bytes_ok (raw_descriptor d t id).
Proof.
  unfold info_ok, below. intros d t id (A & B & C & D) T I L.
  assert (0 <= zlen id) by (unfold zlen; lia).
  repeat (constructor; [unfold byte_ok; lia|]). exact I.
Qed.
Lemma header_values : forall d t id rest, info_ok d -> below 4 t -> zlen id <= 255 ->
  layout_values header_layout (raw_descriptor d t id ++ rest)%list = header_attrs d t (zlen id).
Proof.
  unfold info_ok, below. intros d t id rest (A & B & C & D) T L.
  unfold layout_values, header_layout, header_attrs. cbn [map fst snd loc_value].
  unfold bf. cbn [byte_at raw_descriptor app nth].
  change (ub 2 3 _) with 0. change (ub 3 4 _) with (zlen id).
  change (2 ^ Z.of_nat 0) with 1. change (2 ^ Z.of_nat 1) with 2. change (2 ^ Z.of_nat 2) with 4.
  change (2 ^ Z.of_nat 4) with 16. change (2 ^ Z.of_nat 7) with 128. change (2 ^ 4) with 16 in *. change (2 ^ 2) with 4 in *.
  change (2 ^ 1) with 2 in *.
  repeat (f_equal; try (Z.to_euclidean_division_equations; lia)).
Qed.

Lemma unpack_header : forall fs l k d t id rest, agree fs l = true -> info_ok d -> below 4 t -> bytes_ok id ->
  zlen id <= 255 -> bytes_ok rest -> (layout_end l <= length (raw_descriptor d t id ++ rest))%nat ->
  unpack_fields (map reader_of (designator_header ++ fs) ++ k)%list [] (raw_descriptor d t id ++ rest)%list =
  unpack_fields k (header_attrs d t (zlen id) ++ layout_values l (raw_descriptor d t id ++ rest))%list
    (raw_descriptor d t id ++ rest)%list.
Proof.
  intros fs l k d t id rest A I T B L R E.
  assert (O : bytes_ok (raw_descriptor d t id ++ rest)%list).
  { apply bytes_ok_app. split; [apply raw_ok; assumption|exact R]. }
  assert (A' : agree (designator_header ++ fs)%list (header_layout ++ l)%list = true).
  { change (agree fs l = true). exact A. }
  rewrite (unpack_layout _ _ A') by exact O.
  assert (Q : layout_end (header_layout ++ l)%list = Nat.max 4 (layout_end l)).
  { unfold layout_end. rewrite map_app, list_max_app. reflexivity. }
  rewrite Q. replace (Nat.max 4 (layout_end l) <=? _)%nat with true.
  2:{ symmetry. apply Nat.leb_le. rewrite app_length in *. cbn [raw_descriptor length] in *. lia. }
  unfold layout_values. rewrite map_app. fold (layout_values header_layout (raw_descriptor d t id ++ rest)%list).
  rewrite header_values by assumption. reflexivity.
Qed.

Definition kind_of (i : identifier) : designator_kind :=
  match i with
  | VendorSpecific _ => (vendor_specific_designator, Announced 4)
  | T10 _ _ => (t10_designator, Announced 12)
  | Eui64 _ _ => (eui64_designator, Upto 12)
  | Eui64_12 _ _ _ => (eui64_12_designator, Upto 16)
  | Eui64_16 _ _ _ => (eui64_16_designator, Upto 20)
  | NaaExtended _ _ _ => (naa2_designator, Upto 12)
  | NaaLocal _ => (naa3_designator, Upto 12)
  | NaaRegistered _ _ => (naa5_designator, Upto 12)
  | NaaRegisteredExtended _ _ _ => (naa6_designator, Upto 20)
  | RelativePort _ => (relative_target_port_designator, Upto 8)
  | PortGroup _ => (target_port_group_designator, Upto 8)
  | UnitGroup _ => (logical_unit_group_designator, Upto 8)
  | Md5 _ => (md5_designator, Announced 4)
  | ScsiName _ => (scsi_name_designator, Announced 4)
  | ReservedType _ _ => (reserved_designator, Announced 4)
  end.

Lemma type_code_below : forall i, identifier_ok i -> below 4 (type_code i).
Proof.
  unfold below. intros i (_ & _ & H). destruct i; cbn [type_code]; try lia.
Qed.

Lemma determine_header : forall d t id rest, info_ok d -> below 4 t -> bytes_ok id -> zlen id <= 255 -> bytes_ok rest ->
  unpack_fields (map reader_of designator_header) [] (raw_descriptor d t id ++ rest)%list =
  Ok (header_attrs d t (zlen id)).
Proof.
  intros d t id rest I T B L R.
  pose proof (unpack_header [] [] [] d t id rest eq_refl I T B L R ltac:(cbn; lia)) as H.
  rewrite !app_nil_r in H. rewrite H. reflexivity.
Qed.

Lemma naa_read : forall d b id rest, info_ok d -> bytes_ok (b :: id) -> zlen (b :: id) <= 255 -> bytes_ok rest ->
  unpack_fields (c_fields naa_descriptor) [] (raw_descriptor d 3 (b :: id) ++ rest)%list =
  Ok (header_attrs d 3 (zlen (b :: id)) ++ [("naa", PInt (b / 16))])%list.
Proof.
  intros d b id rest I B L R.
  pose proof (unpack_header [naa_field] [("naa", Bits 4 4 4)] [] d 3 (b :: id) rest eq_refl I ltac:(unfold below; lia) B L R
    ltac:(rewrite app_length; cbn; lia)) as H.
  rewrite app_nil_r in H. change (c_fields naa_descriptor) with (map reader_of (designator_header ++ [naa_field])).
  rewrite H. cbn [unpack_fields layout_values map fst snd loc_value].
  unfold bf. cbn [byte_at raw_descriptor app nth]. inversion B as [|x y X Y]. subst. unfold byte_ok in X.
  change (2 ^ Z.of_nat 4) with 16. rewrite (Z.mod_small (b / 16)) by (Z.to_euclidean_division_equations; lia).
  reflexivity.
Qed.

Lemma be_bytes_head : forall n N, 0 <= N < 256 ^ Z.of_nat (S n) ->
  exists r, be_bytes (S n) N = (N / 256 ^ Z.of_nat n) :: r.
Proof.
  intros n N H. replace (S n) with (1 + n)%nat by lia. rewrite be_bytes_app. exists (be_bytes n N).
  cbn [be_bytes app]. rewrite Z.mod_small; [reflexivity|]. rewrite pow256_S in H. pose proof (pow256_pos n).
  split; [apply Z.div_pos; lia|]. apply Z.div_lt_upper_bound; lia.
Qed.

Lemma determine_spec : forall d rest, designator_ok d -> bytes_ok rest ->
  determine_designator (descriptor_bytes d ++ rest)%list = Ok (kind_of (d_id d)).
Proof.
  intros [d i] rest [I K] R. cbn [d_info d_id] in *. unfold descriptor_bytes. cbn [d_info d_id].
  pose proof (type_code_below i K) as T. destruct K as (O & L & K).
  unfold determine_designator. rewrite (determine_header d _ _ rest I T O L R). cbn [bind].
  change (int_attr "designator_type" _) with (type_code i).
  change (int_attr "designator_length" _) with (zlen (id_bytes i)).
  assert (NAA : forall n N r, 0 <= N < 2 ^ 64 -> N / 2 ^ 56 / 16 = n -> id_bytes i = (be_bytes 8 N ++ r)%list ->
    type_code i = 3 ->
    determine_naa (raw_descriptor d (type_code i) (id_bytes i) ++ rest)%list =
    match n with
    | 2 => Ok (naa2_designator, Upto 12) | 3 => Ok (naa3_designator, Upto 12) | 5 => Ok (naa5_designator, Upto 12)
    | 6 => Ok (naa6_designator, Upto 20) | _ => Err EInstruct
    end).
  { intros n N r HN Hn E C. unfold determine_naa. rewrite C.
    destruct (be_bytes_head 7 N HN) as [q Q]. rewrite E in *. rewrite Q in *. cbn [app] in *.
    rewrite naa_read by assumption. cbn [bind].
    change (int_attr "naa" _) with (N / 256 ^ Z.of_nat 7 / 16).
    change (256 ^ Z.of_nat 7) with (2 ^ 56). rewrite Hn. reflexivity. }
  destruct i; cbn [type_code kind_of]; try reflexivity; unfold below in K.
  - cbn [type_code id_bytes] in NAA |- *. rewrite (NAA 2 (2 * 2 ^ 60 + a * 2 ^ 48 + company * 2 ^ 24 + b) []);
      [reflexivity|lia|Z.to_euclidean_division_equations; lia|rewrite app_nil_r; reflexivity|reflexivity].
  - cbn [type_code id_bytes] in NAA |- *. rewrite (NAA 3 (3 * 2 ^ 60 + value) []);
      [reflexivity|lia|Z.to_euclidean_division_equations; lia|rewrite app_nil_r; reflexivity|reflexivity].
  - cbn [type_code id_bytes] in NAA |- *. rewrite (NAA 5 (5 * 2 ^ 60 + company * 2 ^ 36 + id) []);
      [reflexivity|lia|Z.to_euclidean_division_equations; lia|rewrite app_nil_r; reflexivity|reflexivity].
  - cbn [type_code id_bytes] in NAA |- *. rewrite (NAA 6 (6 * 2 ^ 60 + company * 2 ^ 36 + id) (be_bytes 8 extension));
      [reflexivity|lia|Z.to_euclidean_division_equations; lia|reflexivity|reflexivity].
  - destruct K as [K _]. assert (E : type = 9 \/ type = 10 \/ type = 11 \/ type = 12 \/ type = 13 \/ type = 14 \/ type = 15) by lia.
    repeat (destruct E as [-> | E]; [reflexivity|]). subst. reflexivity.
Qed.

(** * Identifiers made of numbers *)
Definition id_layout (i : identifier) : layout :=
  match i with
  | Eui64 _ _ => [("ieee_company", Num 4 7); ("vendor_specific_extension_identifer", Num 7 12)]
  | Eui64_12 _ _ _ => [("ieee_company", Num 4 7); ("vendor_specific_extension_identifer", Num 7 12); ("directory_id", Num 12 16)]
  | Eui64_16 _ _ _ => [("identifier_extension", Num 4 12); ("ieee_company", Num 12 15);
                       ("vendor_specific_extension_identifer", Num 15 20)]
  | NaaExtended _ _ _ => [("naa", Bits 4 4 4); ("vendor_specific_identifier_a", Mid 4 6 0 12); ("ieee_company", Num 6 9);
                          ("vendor_specific_identifier_b", Num 9 12)]
  | NaaLocal _ => [("naa", Bits 4 4 4); ("locally_administered_value", Mid 4 12 0 60)]
  | NaaRegistered _ _ => [("naa", Bits 4 4 4); ("ieee_company_id", Mid 4 8 4 24); ("vendor_specific_identifier", Mid 7 12 0 36)]
  | NaaRegisteredExtended _ _ _ =>
      [("naa", Bits 4 4 4); ("ieee_company_id", Mid 4 8 4 24); ("vendor_specific_identifier", Mid 7 12 0 36);
       ("vendor_specific_identifier_extension", Num 12 20)]
  | RelativePort _ => [("relative_target_port_identifier", Num 6 8)]
  | PortGroup _ => [("target_port_group", Num 6 8)]
  | UnitGroup _ => [("logical_unit_group", Num 6 8)]
  | _ => []
  end.
Definition id_fields (i : identifier) : list field :=
  match i with
  | Eui64 _ _ => eui64_fields | Eui64_12 _ _ _ => eui64_12_fields | Eui64_16 _ _ _ => eui64_16_fields
  | NaaExtended _ _ _ => naa2_fields | NaaLocal _ => naa3_fields | NaaRegistered _ _ => naa5_fields
  | NaaRegisteredExtended _ _ _ => naa6_fields
  | RelativePort _ => [U "relative_target_port_identifier" (bytes_of 6 8)]
  | PortGroup _ => [U "target_port_group" (bytes_of 6 8)]
  | UnitGroup _ => [U "logical_unit_group" (bytes_of 6 8)]
  | _ => []
  end.
Lemma id_agree : forall i, agree (id_fields i) (id_layout i) = true.
Proof. intros i. destruct i; vm_compute; reflexivity. Qed.

Definition numeric (i : identifier) : bool :=
  match i with
  | VendorSpecific _ => false | T10 _ _ => false | Md5 _ => false | ScsiName _ => false | ReservedType _ _ => false
  | _ => true
  end.

(** Numbers in the identifier: the first one starts at byte 4, the second one at byte 12. *)
Lemma ub_first : forall d t n N r rest i j, (4 <= i)%nat -> (i <= j)%nat -> (j <= 4 + n)%nat ->
  ub i j (raw_descriptor d t (be_bytes n N ++ r)%list ++ rest)%list =
  (N / 256 ^ Z.of_nat (4 + n - j)) mod 256 ^ Z.of_nat (j - i).
Proof.
  intros d t n N r rest i j A B C.
  pose proof (ub_be n N [d_code_set d + 16 * d_protocol d; t + 16 * d_association d + 128 * d_piv d; 0; zlen (be_bytes n N ++ r)%list]
    (r ++ rest)%list (i - 4) (j - 4) ltac:(lia) ltac:(lia)) as H. cbn [length] in H.
  replace (4 + (i - 4))%nat with i in H by lia. replace (4 + (j - 4))%nat with j in H by lia.
  replace (j - 4 - (i - 4))%nat with (j - i)%nat in H by lia. replace (n - (j - 4))%nat with (4 + n - j)%nat in H by lia.
  rewrite <- H. unfold raw_descriptor. cbn [app]. rewrite <- !app_assoc. reflexivity.
Qed.
Lemma ub_second : forall d t n N m M rest i j, (4 + n <= i)%nat -> (i <= j)%nat -> (j <= 4 + n + m)%nat ->
  ub i j (raw_descriptor d t (be_bytes n N ++ be_bytes m M)%list ++ rest)%list =
  (M / 256 ^ Z.of_nat (4 + n + m - j)) mod 256 ^ Z.of_nat (j - i).
Proof.
  intros d t n N m M rest i j A B C.
  pose proof (ub_be m M ([d_code_set d + 16 * d_protocol d; t + 16 * d_association d + 128 * d_piv d; 0;
      zlen (be_bytes n N ++ be_bytes m M)%list] ++ be_bytes n N)%list rest (i - (4 + n)) (j - (4 + n)) ltac:(lia) ltac:(lia)) as H.
  rewrite app_length, be_bytes_length in H. cbn [length] in H.
  replace (4 + n + (i - (4 + n)))%nat with i in H by lia. replace (4 + n + (j - (4 + n)))%nat with j in H by lia.
  replace (j - (4 + n) - (i - (4 + n)))%nat with (j - i)%nat in H by lia.
  replace (m - (j - (4 + n)))%nat with (4 + n + m - j)%nat in H by lia.
  rewrite <- H. unfold raw_descriptor. cbn [app]. rewrite <- !app_assoc. reflexivity.
Qed.

Ltac numbers :=
  cbn [Nat.sub Nat.add] in *;
  repeat match goal with |- context [Z.of_nat ?n] => let z := eval vm_compute in (Z.of_nat n) in change (Z.of_nat n) with z end;
  repeat match goal with |- context [2 ^ ?n] => let z := eval vm_compute in (2 ^ n) in change (2 ^ n) with z end;
  repeat match goal with |- context [256 ^ ?n] => let z := eval vm_compute in (256 ^ n) in change (256 ^ n) with z end;
  repeat match goal with H : context [2 ^ ?n] |- _ => let z := eval vm_compute in (2 ^ n) in change (2 ^ n) with z in H end.

Lemma id_values : forall d i rest, identifier_ok i -> numeric i = true ->
  layout_values (id_layout i) (raw_descriptor d (type_code i) (id_bytes i) ++ rest)%list = id_attrs i.
Proof.
  intros d i rest (O & L & K) N.
  destruct i; try discriminate N; clear N O L; unfold below in K;
    unfold layout_values; cbn [map fst snd loc_value id_layout id_attrs type_code id_bytes]; unfold bf;
    try rewrite <- byte_at_ub.
  - rewrite <- (app_nil_r (be_bytes 8 _)). rewrite !ub_first by lia. numbers.
    repeat (f_equal; try (Z.to_euclidean_division_equations; lia)).
  - rewrite !ub_first by lia. rewrite ub_second by lia. numbers.
    repeat (f_equal; try (Z.to_euclidean_division_equations; lia)).
  - rewrite ub_first by lia. rewrite !ub_second by lia. numbers.
    repeat (f_equal; try (Z.to_euclidean_division_equations; lia)).
  - rewrite <- (app_nil_r (be_bytes 8 _)). rewrite !ub_first by lia. numbers.
    repeat (f_equal; try (Z.to_euclidean_division_equations; lia)).
  - rewrite <- (app_nil_r (be_bytes 8 _)). rewrite !ub_first by lia. numbers.
    repeat (f_equal; try (Z.to_euclidean_division_equations; lia)).
  - rewrite <- (app_nil_r (be_bytes 8 _)). rewrite !ub_first by lia. numbers.
    repeat (f_equal; try (Z.to_euclidean_division_equations; lia)).
  - rewrite !ub_first by lia. rewrite ub_second by lia. numbers.
    repeat (f_equal; try (Z.to_euclidean_division_equations; lia)).
  - change (0 :: 0 :: be_bytes 2 port) with (be_bytes 2 0 ++ be_bytes 2 port)%list. rewrite ub_second by lia. numbers.
    repeat (f_equal; try (Z.to_euclidean_division_equations; lia)).
  - change (0 :: 0 :: be_bytes 2 group) with (be_bytes 2 0 ++ be_bytes 2 group)%list. rewrite ub_second by lia. numbers.
    repeat (f_equal; try (Z.to_euclidean_division_equations; lia)).
  - change (0 :: 0 :: be_bytes 2 group) with (be_bytes 2 0 ++ be_bytes 2 group)%list. rewrite ub_second by lia. numbers.
    repeat (f_equal; try (Z.to_euclidean_division_equations; lia)).
Qed.

Lemma id_length : forall i, numeric i = true ->
  snd (kind_of i) = Upto (4 + length (id_bytes i)) /\ layout_end (id_layout i) = (4 + length (id_bytes i))%nat.
Proof.
  intros i N. destruct i; try discriminate N; cbn [kind_of snd id_bytes]; rewrite ?app_length, ?be_bytes_length; split; reflexivity.
Qed.

Lemma raw_length : forall d t id, length (raw_descriptor d t id) = (4 + length id)%nat.
Proof. reflexivity. Qed.

Lemma numeric_element : forall d rest, designator_ok d -> bytes_ok rest -> numeric (d_id d) = true ->
  designator_element (descriptor_bytes d ++ rest)%list = Ok (designator_object d, length (descriptor_bytes d)).
Proof.
  intros d rest D R N. unfold designator_element. rewrite determine_spec by assumption. cbn [bind].
  destruct d as [d i], D as [I K]. cbn [d_info d_id] in *.
  pose proof (type_code_below i K) as T. destruct (id_length i N) as [E X].
  assert (C : fst (kind_of i) = designator_class (id_class i) (id_fields i)) by (destruct i; try discriminate N; reflexivity).
  destruct (kind_of i) as [c e]. cbn [fst snd] in *. subst c e.
  unfold unpack, designator_class, buffer_class. cbn [c_fields c_name].
  unfold descriptor_bytes. cbn [d_info d_id].
  pose proof (unpack_header (id_fields i) (id_layout i) [] d (type_code i) (id_bytes i) rest (id_agree i) I T
     (proj1 K) (proj1 (proj2 K)) R) as H. rewrite app_nil_r in H. rewrite H.
  2:{ rewrite app_length, raw_length, X. lia. }
  cbn [unpack_fields bind]. rewrite id_values by assumption. reflexivity.
Qed.

