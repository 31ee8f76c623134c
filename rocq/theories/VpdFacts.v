(** INQUIRY pages other than device identification. *)
From Coq Require Import String ZArith List Bool Lia.
From Verif Require Import Base BaseFacts OsCommon Instruct InstructFacts Command CdbPrimary SpecDevice CdbLemmas
  ResponseLemmas CdbResponseFacts CdbPrimaryFacts Pages SpecLayout LayoutFacts SpecPages PageFacts DesignatorFacts SpecVpd.
Import ListNotations.
Local Open Scope string_scope.
Local Open Scope Z_scope.

(** * Slices *)
Lemma skipn_skipn' : forall {A} a b (l : list A), skipn a (skipn b l) = skipn (b + a) l.
Proof.
  intros A a b l. revert l. induction b as [|b IH]; intros l; [reflexivity|]. destruct l as [|x l]; [destruct a; reflexivity|].
  cbn [skipn Nat.add]. apply IH.
Qed.
Lemma slice_skipn : forall k a b l, slice a b (skipn k l) = slice (k + a) (k + b) l.
Proof. intros. unfold slice. rewrite skipn_skipn'. f_equal. lia. Qed.
Lemma slice_firstn : forall n a b (l : bytes), (b <= n)%nat -> slice a b (firstn n l) = slice a b l.
Proof.
  intros n a b l H. unfold slice. rewrite skipn_firstn_comm, firstn_firstn. f_equal. lia.
Qed.
Lemma ub_skipn : forall k a b l, ub a b (skipn k l) = ub (k + a) (k + b) l.
Proof. intros. unfold ub. rewrite slice_skipn. reflexivity. Qed.
Lemma byte_at_skipn : forall k i l, byte_at i (skipn k l) = byte_at (k + i) l.
Proof.
  intros k i l. unfold byte_at. revert l. induction k as [|k IH]; intros l; [reflexivity|].
  destruct l as [|x l]; cbn [skipn Nat.add nth]; [destruct i; reflexivity|apply IH].
Qed.
Lemma byte_at_firstn : forall n i l, (i < n)%nat -> byte_at i (firstn n l) = byte_at i l.
Proof.
  induction n as [|n IH]; intros i l H; [lia|]. destruct l as [|x l]; [reflexivity|]. destruct i as [|i]; [reflexivity|].
  cbn [firstn]. unfold byte_at in *. cbn [nth]. apply IH. lia.
Qed.
Lemma slice_ok : forall a b l, bytes_ok l -> bytes_ok (slice a b l).
Proof.
  intros a b l O. unfold slice. apply Forall_forall. intros x I. apply firstn_in in I. apply skipn_in in I.
  revert x I. apply Forall_forall. exact O.
Qed.
Lemma slice_length : forall a b (l : bytes), length (slice a b l) = (Nat.min (b - a) (length l - a))%nat.
Proof. intros. unfold slice. rewrite firstn_length, skipn_length. reflexivity. Qed.
Lemma slice_all : forall a b (l : bytes), (length l <= b)%nat -> slice a b l = skipn a l.
Proof. intros a b l H. unfold slice. apply firstn_all2. rewrite skipn_length. lia. Qed.
Lemma slice_slice : forall a b c d (l : bytes), slice c d (slice a b l) = slice (a + c) (Nat.min (a + d) b) l.
Proof.
  intros. unfold slice. rewrite skipn_firstn_comm, skipn_skipn', firstn_firstn. f_equal. lia.
Qed.

(** * Lists of numbers *)
Lemma list_n_uint : forall size n buf, (0 < size)%nat -> bytes_ok buf ->
  list_n (elem_uint size) n buf =
  if (n * size <=? length buf)%nat
  then Ok (map (fun k => PInt (ub (size * k) (size * k + size) buf)) (seq 0 n), (n * size)%nat) else Err EInstruct.
Proof.
  intros size n buf S O. revert buf O. induction n as [|n IH]; intros buf O; [reflexivity|].
  cbn [list_n]. unfold elem_uint at 1. rewrite read_bytes by (auto; lia).
  destruct (Nat.leb_spec size (length buf)) as [L|L]; cbn [bind].
  - rewrite IH by (apply Forall_forall; intros x I; apply skipn_in in I; revert x I; apply Forall_forall; exact O).
    rewrite skipn_length.
    destruct (Nat.leb_spec (n * size) (length buf - size)); destruct (Nat.leb_spec (Datatypes.S n * size) (length buf)); try lia; [|reflexivity].
    cbn [bind]. f_equal. f_equal. cbn [seq map]. f_equal; [do 2 f_equal; lia|].
    rewrite <- seq_shift, map_map. apply map_ext. intros k. rewrite ub_skipn. do 2 f_equal; lia.
  - destruct (Nat.leb_spec (Datatypes.S n * size) (length buf)); [lia|reflexivity].
Qed.
Lemma list_all_bytes : forall buf fuel, bytes_ok buf -> (length buf <= fuel)%nat ->
  list_all (elem_uint 1) fuel buf = Ok (map PInt buf).
Proof.
  induction buf as [|b r IH]; intros fuel O L; [destruct fuel; reflexivity|].
  destruct fuel as [|fuel]; [cbn in L; lia|]. cbn [list_all]. unfold elem_uint at 1.
  rewrite read_bytes by (auto; lia). cbn [length Nat.leb]. cbn [bind].
  change (skipn 1 (b :: r)) with r. rewrite IH; [|inversion O; assumption|cbn in L; lia]. cbn [bind map].
  reflexivity.
Qed.
Lemma map_bytes : forall n buf, (n <= length buf)%nat ->
  map (fun k => PInt (ub (1 * k) (1 * k + 1) buf)) (seq 0 n) = map PInt (firstn n buf).
Proof.
  induction n as [|n IH]; intros buf L; [reflexivity|]. destruct buf as [|b r]; [cbn in L; lia|].
  cbn [seq map firstn]. apply f_equal2; [reflexivity|]. rewrite <- seq_shift, map_map. rewrite <- IH by (cbn in L; lia).
  apply map_ext. reflexivity.
Qed.

(** * Peripheral device byte *)
Lemma uf_peripheral : forall k got buf, bytes_ok buf ->
  unpack_fields (r_peripheral_device :: k) got buf =
  if (1 <=? length buf)%nat then unpack_fields k (got ++ [peripheral_value buf])%list buf else Err EInstruct.
Proof.
  intros k got buf O. unfold r_peripheral_device. cbn [unpack_fields]. unfold r_obj, to_end, zlen. rewrite Nat2Z.id.
  rewrite slice_all by lia. cbn [skipn]. unfold peripheral_device.
  rewrite (unpack_layout_all _ _ peripheral_layout) by (auto; reflexivity).
  change (layout_end peripheral_layout) with 1%nat. destruct (1 <=? length buf)%nat; reflexivity.
Qed.

Ltac page_tac l n :=
  match goal with |- unpack ?c ?buf = _ => unfold unpack, c; cbn [c_fields c_name] end;
  rewrite uf_peripheral by assumption;
  match goal with |- context [map reader_of ?fs] => rewrite <- (app_nil_r (map reader_of fs)); rewrite (unpack_layout fs l) by (auto; reflexivity) end;
  change (layout_end l) with n%nat;
  match goal with |- context [(n <=? length ?buf)%nat] =>
    destruct (Nat.leb_spec n (length buf)); destruct (Nat.leb_spec 1 (length buf)); try lia; reflexivity end.

Lemma block_limits_spec : forall buf, bytes_ok buf ->
  unpack block_limits buf =
  if (44 <=? length buf)%nat
  then Ok (PObj "BlockLimitsVPDPageBuffer" (peripheral_value buf :: layout_values block_limits_layout buf)) else Err EInstruct.
Proof. intros buf O. page_tac block_limits_layout 44%nat. Qed.
Lemma veritas_spec : forall buf, bytes_ok buf ->
  unpack veritas buf =
  if (6 <=? length buf)%nat
  then Ok (PObj "VeritasVPDPageBuffer" (peripheral_value buf :: layout_values veritas_layout buf)) else Err EInstruct.
Proof. intros buf O. page_tac veritas_layout 6%nat. Qed.

Lemma provisioning_short : forall buf, bytes_ok buf -> (length buf <= 8)%nat ->
  unpack logical_block_provisioning buf =
  if (7 <=? length buf)%nat
  then Ok (PObj "LogicalBlockProvisioningVPDPageBuffer"
             (peripheral_value buf :: layout_values provisioning_layout buf ++ [("provisioning_group_descriptor", PNone)])%list)
  else Err EInstruct.
Proof.
  intros buf O L. unfold unpack, logical_block_provisioning; cbn [c_fields c_name].
  rewrite uf_peripheral by assumption. rewrite (unpack_layout _ provisioning_layout) by (auto; reflexivity).
  change (layout_end provisioning_layout) with 7%nat.
  destruct (Nat.leb_spec 7 (length buf)); destruct (Nat.leb_spec 1 (length buf)); try lia; try reflexivity.
  cbn [unpack_fields]. unfold r_if at 1, longer. destruct (Z.leb_spec 9 (zlen buf)); [unfold zlen in *; lia|]. reflexivity.
Qed.
Lemma provisioning_long : forall head d rest, bytes_ok head -> length head = 8%nat -> designator_ok d -> bytes_ok rest ->
  let buf := (head ++ descriptor_bytes d ++ rest)%list in
  unpack logical_block_provisioning buf =
  Ok (PObj "LogicalBlockProvisioningVPDPageBuffer"
        (peripheral_value buf :: layout_values provisioning_layout buf ++
         [("provisioning_group_descriptor", designator_object d)])%list).
Proof.
  intros head d rest O L D R buf. destruct (designator_decodes d D) as (N & OD & E).
  assert (OB : bytes_ok buf) by (subst buf; repeat (apply bytes_ok_app; split); assumption).
  assert (LB : (9 <= length buf)%nat).
  { subst buf. rewrite !app_length, L. destruct (descriptor_bytes d) as [|x y]; [contradiction|cbn; lia]. }
  unfold unpack, logical_block_provisioning; cbn [c_fields c_name].
  rewrite uf_peripheral by assumption. rewrite (unpack_layout _ provisioning_layout) by (auto; reflexivity).
  change (layout_end provisioning_layout) with 7%nat. do 2 too_short.
  cbn [unpack_fields]. unfold r_if at 1, longer. destruct (Z.leb_spec 9 (zlen buf)); [|unfold zlen in *; lia].
  replace (skipn 8 buf) with (descriptor_bytes d ++ rest)%list by (subst buf; symmetry; apply skipn_exactly; exact L).
  rewrite E by exact R. reflexivity.
Qed.

(** * Serial number, supported pages, unknown pages *)
Lemma short_page : forall k buf, bytes_ok buf ->
  unpack_fields (r_peripheral_device :: ("page_code", r_uint (byte_of 1)) :: ("page_length", r_uint (byte_of 3)) :: k) [] buf =
  if (4 <=? length buf)%nat then unpack_fields k (short_header buf) buf else Err EInstruct.
Proof.
  intros k buf O. rewrite uf_peripheral by exact O.
  rewrite uf_byte by exact O. rewrite uf_byte by exact O.
  destruct (Nat.leb_spec 4 (length buf)); [do 2 too_short; reflexivity|].
  destruct (Nat.leb_spec 1 (length buf)); [|reflexivity]. destruct (Nat.leb_spec 2 (length buf)); reflexivity.
Qed.
Lemma to_nat_plus : forall k v, 0 <= v -> Z.to_nat (Z.of_nat k + v) = (k + Z.to_nat v)%nat.
Proof. intros. lia. Qed.
Lemma ub_nonneg : forall a b buf, bytes_ok buf -> 0 <= ub a b buf.
Proof. intros a b buf O. unfold ub. apply be_val_bounds. apply slice_ok. exact O. Qed.

Lemma serial_number_spec : forall buf, bytes_ok buf ->
  unpack unit_serial_number buf = if (4 <=? length buf)%nat then Ok (serial_number_object buf) else Err EInstruct.
Proof.
  intros buf O. unfold unpack, unit_serial_number. cbn [c_fields c_name]. rewrite short_page by exact O.
  destruct (4 <=? length buf)%nat; [|reflexivity]. cbn [unpack_fields]. unfold r_str, plus. cbn [bind].
  change (int_attr "page_length" (short_header buf)) with (ub 3 4 buf). change 4 with (Z.of_nat 4) at 1.
  rewrite to_nat_plus by (apply ub_nonneg; exact O). reflexivity.
Qed.
Lemma supported_pages_spec : forall buf, bytes_ok buf ->
  unpack supported_vpd_pages buf =
  if (4 <=? length buf)%nat && (4 + Z.to_nat (ub 3 4 buf) <=? length buf)%nat
  then Ok (supported_pages_object buf) else Err EInstruct.
Proof.
  intros buf O. unfold unpack, supported_vpd_pages. cbn [c_fields c_name]. rewrite short_page by exact O.
  destruct (Nat.leb_spec 4 (length buf)); [|reflexivity]. cbn [unpack_fields]. unfold r_list_n, to_end.
  change (int_attr "page_length" (short_header buf)) with (ub 3 4 buf).
  unfold zlen. rewrite Nat2Z.id. rewrite slice_all by lia.
  rewrite list_n_uint; [|lia|apply Forall_forall; intros x I; apply skipn_in in I; revert x I; apply Forall_forall; exact O].
  rewrite skipn_length, Nat.mul_1_r. cbn [andb].
  destruct (Nat.leb_spec (Z.to_nat (ub 3 4 buf)) (length buf - 4)); destruct (Nat.leb_spec (4 + Z.to_nat (ub 3 4 buf)) (length buf)); try lia; [|reflexivity].
  cbn [bind]. rewrite map_bytes by (rewrite skipn_length; lia).
  unfold supported_pages_object, slice. replace (4 + Z.to_nat (ub 3 4 buf) - 4)%nat with (Z.to_nat (ub 3 4 buf)) by lia. reflexivity.
Qed.
Lemma unknown_page_spec : forall buf, bytes_ok buf ->
  unpack unknown_vpd_page buf = if (4 <=? length buf)%nat then Ok (unknown_page_object buf) else Err EInstruct.
Proof.
  intros buf O. unfold unpack, unknown_vpd_page. cbn [c_fields c_name]. rewrite uf_peripheral by exact O.
  rewrite uf_byte by exact O. rewrite uf_ub by (auto; lia).
  destruct (Nat.leb_spec 4 (length buf)).
  - do 2 too_short. cbn [unpack_fields app]. unfold r_list, plus. change (int_attr "page_length" _) with (ub 2 4 buf).
    change 4 with (Z.of_nat 4) at 1. rewrite to_nat_plus by (apply ub_nonneg; exact O).
    unfold read_list. rewrite list_all_bytes by (auto using slice_ok). reflexivity.
  - destruct (Nat.leb_spec 1 (length buf)); [|reflexivity]. destruct (Nat.leb_spec 2 (length buf)); reflexivity.
Qed.

(** Packing a serial number page. *)
Definition serial_fields : list field :=
  (peripheral_device_fields ++ [U "page_code" (byte_of 1); U "page_length" (byte_of 3)])%list.
