(** Facts about the SES pages. *)
From Coq Require Import String ZArith List Bool Lia.
From Verif Require Import Base BaseFacts OsCommon Instruct InstructFacts Command CdbPrimary SpecDevice CdbLemmas
  ResponseLemmas CdbResponseFacts CdbPrimaryFacts Pages SpecLayout LayoutFacts VpdFacts InquiryFacts Ses SpecSes.
Import ListNotations.
Local Open Scope string_scope.
Local Open Scope Z_scope.

(** * Places in a part of the data *)
Lemma slice_app1 : forall a b (e rest : bytes), (b <= length e)%nat -> slice a b (e ++ rest)%list = slice a b e.
Proof.
  intros a b e rest H. unfold slice. destruct (Nat.le_gt_cases a b).
  - rewrite skipn_app, firstn_app, skipn_length.
    replace (b - a - (length e - a))%nat with 0%nat by lia. cbn [firstn]. apply app_nil_r.
  - replace (b - a)%nat with 0%nat by lia. reflexivity.
Qed.
Lemma ub_app1 : forall a b (e rest : bytes), (b <= length e)%nat -> ub a b (e ++ rest)%list = ub a b e.
Proof. intros. unfold ub. rewrite slice_app1 by assumption. reflexivity. Qed.
Lemma byte_app1 : forall k (e rest : bytes), (k < length e)%nat -> byte_at k (e ++ rest)%list = byte_at k e.
Proof. intros. unfold byte_at. apply app_nth1. assumption. Qed.
Lemma loc_app1 : forall l (e rest : bytes), (loc_end l <= length e)%nat -> loc_value l (e ++ rest)%list = loc_value l e.
Proof.
  intros l e rest H. destruct l; cbn [loc_end loc_value] in *; unfold sb, bf;
    rewrite ?ub_app1, ?byte_app1 by lia; reflexivity.
Qed.
Lemma layout_app1 : forall l (e rest : bytes), (layout_end l <= length e)%nat ->
  layout_values l (e ++ rest)%list = layout_values l e.
Proof.
  induction l as [|x l IH]; intros e rest H; [reflexivity|].
  change (layout_end (x :: l)) with (Nat.max (loc_end (snd x)) (layout_end l)) in H.
  cbn [layout_values map]. rewrite loc_app1 by lia. unfold layout_values in IH. rewrite IH by lia. reflexivity.
Qed.

Definition down (l : loc) : loc :=
  match l with
  | Num a b => Num (a - 1) (b - 1) | SNum a b => SNum (a - 1) (b - 1) | Bits k lo w => Bits (k - 1) lo w
  | Mid a b lo w => Mid (a - 1) (b - 1) lo w | Swapped k lo w j => Swapped (k - 1) lo w (j - 1)
  end.
Definition inside (l : loc) : bool :=
  match l with
  | Num a b => (1 <=? a) && (b <=? 4) | SNum a b => (1 <=? a) && (b <=? 4) | Bits k _ _ => (1 <=? k) && (k <=? 3)
  | Mid a b _ _ => (1 <=? a) && (b <=? 4) | Swapped k _ _ j => (1 <=? k) && (k <=? 3) && (1 <=? j) && (j <=? 3)
  end%nat.
Lemma loc_down : forall l e, inside l = true -> (1 <=? loc_end l)%nat = true -> loc_value (down l) (slice 1 4 e) = loc_value l e.
Proof.
  intros l e H H1.
  assert (U : forall a b, (1 <=? a)%nat && (b <=? 4)%nat = true -> (1 <=? b)%nat = true -> ub (a - 1) (b - 1) (slice 1 4 e) = ub a b e).
  { intros a b K K1. rewrite andb_true_iff, !Nat.leb_le in K. apply Nat.leb_le in K1. unfold ub. rewrite slice_slice.
    replace (1 + (a - 1))%nat with a by lia. replace (Nat.min (1 + (b - 1)) 4) with b by lia. reflexivity. }
  assert (B : forall k, (1 <=? k)%nat && (k <=? 3)%nat = true -> byte_at (k - 1) (slice 1 4 e) = byte_at k e).
  { intros k K. rewrite andb_true_iff, !Nat.leb_le in K. unfold slice. rewrite byte_at_firstn by lia. rewrite byte_at_skipn.
    f_equal. lia. }
  destruct l; cbn [down loc_value inside loc_end] in *.
  - apply U; assumption.
  - unfold sb. rewrite U by assumption. replace (b - 1 - (a - 1))%nat with (b - a)%nat; [reflexivity|].
    rewrite andb_true_iff, !Nat.leb_le in H. lia.
  - unfold bf. rewrite B by assumption. reflexivity.
  - rewrite U by assumption. reflexivity.
  - rewrite !andb_true_iff in H. unfold bf. rewrite !B; [reflexivity| |]; apply andb_true_iff; tauto.
Qed.
Definition all_inside (l : layout) : bool := forallb (fun x => inside (snd x) && (1 <=? loc_end (snd x))%nat) l.
Definition down_layout (l : layout) : layout := map (fun x => (fst x, down (snd x))) l.
Lemma layout_down : forall l e, all_inside l = true -> layout_values (down_layout l) (slice 1 4 e) = layout_values l e.
Proof.
  intros l e. induction l as [|x l IH]; intros H; [reflexivity|].
  cbn [all_inside forallb] in H. rewrite !andb_true_iff in H. destruct H as [[H1 H2] H].
  unfold layout_values, down_layout in *. cbn [map fst snd]. rewrite loc_down by assumption. rewrite IH by exact H. reflexivity.
Qed.
Lemma layout_down_end : forall l, all_inside l = true -> (layout_end (down_layout l) <= 3)%nat.
Proof.
  induction l as [|x l IH]; intros H; [cbn; lia|].
  cbn [all_inside forallb] in H. rewrite !andb_true_iff in H. destruct H as [[H1 H2] H].
  change (layout_end (down_layout (x :: l))) with (Nat.max (loc_end (down (snd x))) (layout_end (down_layout l))).
  specialize (IH H). apply Nat.max_lub; [|exact IH].
  destruct (snd x); cbn [down loc_end inside] in *; rewrite !andb_true_iff, !Nat.leb_le in H1; apply Nat.leb_le in H2; lia.
Qed.

(** * Status elements *)
Lemma uf_status_base : forall k got buf, bytes_ok buf -> (4 <= length buf)%nat ->
  unpack_fields (map reader_of base_status_fields ++ k)%list got buf =
  unpack_fields k (got ++ layout_values common_layout buf)%list buf.
Proof.
  intros k got buf O L. rewrite (unpack_layout _ common_layout) by (auto; reflexivity).
  change (layout_end common_layout) with 1%nat. too_short. reflexivity.
Qed.
Lemma numbers_element : forall name info fs L e rest, text_of_length 4 e -> bytes_ok rest ->
  agree fs (down_layout L) = true -> all_inside L = true ->
  elem_obj (status_numbers name info fs) 4 (e ++ rest)%list =
  Ok (PObj name (layout_values common_layout e ++ [("status_info", PObj info (layout_values L e))])%list, 4%nat).
Proof.
  intros name info fs L e rest [O N] R A D. unfold elem_obj, unpack, status_numbers, status_class. cbn [c_fields c_name].
  rewrite uf_status_base; [|apply bytes_ok_app; auto|rewrite app_length; lia].
  cbn [app unpack_fields]. unfold r_obj at 1, upto. change (Z.to_nat 4) with 4%nat.
  rewrite slice_app1 by lia. rewrite (unpack_layout_all info fs _ _ A) by (apply slice_ok; exact O).
  rewrite slice_length, N. pose proof (layout_down_end L D).
  replace (layout_end (down_layout L) <=? Nat.min (4 - 1) (4 - 1))%nat with true by (symmetry; apply Nat.leb_le; cbn; lia).
  cbn [bind]. rewrite layout_down by exact D. rewrite layout_app1 by (rewrite N; cbn; lia). reflexivity.
Qed.
Lemma int8_spec : forall b r, bytes_ok (b :: r) -> elem_int8 (b :: r) = Ok (PInt (sb 0 1 (b :: r)), 1%nat).
Proof. intros b r O. unfold elem_int8. rewrite read_sbytes by (auto; lia). reflexivity. Qed.
Lemma general_element : forall e rest, text_of_length 4 e -> bytes_ok rest ->
  elem_obj general_status 4 (e ++ rest)%list = Ok (general_object e, 4%nat).
Proof.
  intros e rest [O N] R. unfold elem_obj, unpack, general_status, status_class. cbn [c_fields c_name].
  rewrite uf_status_base; [|apply bytes_ok_app; auto|rewrite app_length; lia].
  cbn [app unpack_fields]. unfold r_obj at 1, upto. change (Z.to_nat 4) with 4%nat. rewrite slice_app1 by lia.
  destruct e as [|b0 [|b1 [|b2 [|b3 [|]]]]]; try discriminate.
  change (slice 1 4 [b0; b1; b2; b3]) with [b1; b2; b3].
  assert (G : unpack general_info [b1; b2; b3] =
              Ok (PObj "GeneralElementInfo" [("general", PList [PInt (sb 1 2 [b0; b1; b2; b3]); PInt (sb 2 3 [b0; b1; b2; b3]);
                                                                 PInt (sb 3 4 [b0; b1; b2; b3])])])).
  { apply (bytes_ok_skipn 1) in O. cbn [skipn] in O.
    unfold unpack, general_info. cbn [c_fields c_name unpack_fields]. unfold r_list, to_end.
    change (slice 0 (Z.to_nat (zlen [b1; b2; b3])) [b1; b2; b3]) with [b1; b2; b3].
    unfold read_list. cbn [length list_all].
    rewrite int8_spec by exact O. cbn [bind skipn]. apply (bytes_ok_skipn 1) in O. cbn [skipn] in O.
    rewrite int8_spec by exact O. cbn [bind skipn]. apply (bytes_ok_skipn 1) in O. cbn [skipn] in O.
    rewrite int8_spec by exact O. reflexivity. }
  rewrite G. cbn [bind]. rewrite layout_app1 by (cbn; lia). reflexivity.
Qed.

Lemma element_class_other : forall type, kind_of type element_kinds = None -> element_class type = general_status.
Proof.
  intros type H. destruct type as [|p|p]; try reflexivity.
  do 5 (destruct p as [p|p|]; try reflexivity; try discriminate H).
Qed.
Lemma kind_cases : forall type k, kind_of type element_kinds = Some k ->
  exists fs, element_class type = status_numbers (k_class k) (k_info k) fs /\
    agree fs (down_layout (with_deviations (k_deviations k) (k_layout k))) = true /\
    all_inside (with_deviations (k_deviations k) (k_layout k)) = true.
Proof.
  intros type k. unfold element_kinds. cbn [kind_of].
  repeat (match goal with |- (if ?t =? ?c then _ else _) = _ -> _ =>
    destruct (Z.eqb_spec t c) as [->|_];
    [intros E; injection E as <-; cbn [element_class k_class k_info k_layout k_deviations];
     eexists; split; [reflexivity|]; split; vm_compute; reflexivity|] end).
  discriminate.
Qed.
Lemma element_spec : forall type e rest, text_of_length 4 e -> bytes_ok rest ->
  elem_obj (element_class type) 4 (e ++ rest)%list = Ok (element_object type e, 4%nat).
Proof.
  intros type e rest E R. unfold element_object. destruct (kind_of type element_kinds) as [k|] eqn:K.
  - destruct (kind_cases type k K) as (fs & -> & A & D). apply numbers_element; assumption.
  - rewrite (element_class_other type K). apply general_element; assumption.
Qed.

(** * Lists *)
Lemma per_header_enc : forall {A} (hdr : A -> pyval) (enc : A -> bytes) obj one l rest,
  Forall (fun x => bytes_ok (enc x) /\ forall r, bytes_ok r -> one (hdr x) (enc x ++ r)%list = Ok (obj x, length (enc x))) l ->
  bytes_ok rest ->
  per_header one (map hdr l) (flat_map enc l ++ rest)%list = Ok (map obj l).
Proof.
  intros A hdr enc obj one l rest F R.
  assert (K : forall m, Forall (fun x => bytes_ok (enc x) /\
     forall r, bytes_ok r -> one (hdr x) (enc x ++ r)%list = Ok (obj x, length (enc x))) m -> bytes_ok (flat_map enc m ++ rest)%list).
  { intros m G. induction G as [|x m [O _] G IH]; [exact R|]. cbn [flat_map]. rewrite <- app_assoc. apply bytes_ok_app. auto. }
  induction F as [|x l [O D] F IH]; [reflexivity|]. cbn [map flat_map per_header].
  rewrite <- app_assoc. rewrite D by (apply K; exact F). cbn [bind].
  rewrite skipn_exactly by reflexivity. rewrite IH. reflexivity.
Qed.

(** * Page headers *)
Lemma sb_signed : forall a b buf, (a <= b)%nat -> sb a b buf = signed (b - a) (ub a b buf).
Proof. reflexivity. Qed.
Lemma be_single : forall v, be_val [v] = v.
Proof. intros v. reflexivity. Qed.
Lemma ses_page_ok : forall code b1 gen body rest, is_byte code -> is_byte b1 -> bytes_ok body -> bytes_ok rest ->
  bytes_ok (ses_page code b1 gen body ++ rest)%list.
Proof.
  intros code b1 gen body rest C B O R. unfold ses_page.
  rewrite <- !app_assoc. apply bytes_ok_app. split.
  { constructor; [exact C|]. constructor; [exact B|constructor]. }
  apply bytes_ok_app. split; [apply be_bytes_ok|]. apply bytes_ok_app. split; [apply be_bytes_ok|].
  apply bytes_ok_app. split; assumption.
Qed.
Lemma ses_page_values : forall code b1 gen body rest, 4 + zlen body < 65536 -> 0 <= gen < 2 ^ 32 ->
  let buf := (ses_page code b1 gen body ++ rest)%list in
  ub 0 1 buf = code /\ ub 1 2 buf = b1 /\ byte_at 1 buf = b1 /\ ub 2 4 buf = 4 + zlen body /\ ub 4 8 buf = gen /\
  skipn 8 buf = (body ++ rest)%list /\ (8 <= length buf)%nat.
Proof.
  intros code b1 gen body rest L G. cbv zeta. unfold ses_page. rewrite <- !app_assoc.
  pose proof (be_bytes_length 2 (4 + zlen body)) as L2. pose proof (be_bytes_length 4 gen) as L4.
  assert (Z0 : 0 <= zlen body) by (unfold zlen; lia).
  repeat split.
  - change ([code; b1] ++ ?r)%list with ([code; b1] ++ be_bytes 2 (4 + zlen body) ++ be_bytes 4 gen ++ body ++ rest)%list.
    rewrite (ub_in 2 4 [code; b1] (be_bytes 2 (4 + zlen body))) by (auto; lia).
    apply be_val_be_bytes_small. change (256 ^ Z.of_nat 2) with 65536. lia.
  - rewrite app_assoc. rewrite (ub_in 4 8 ([code; b1] ++ be_bytes 2 (4 + zlen body))%list (be_bytes 4 gen))
      by (rewrite ?app_length, ?L2, ?L4; reflexivity).
    apply be_val_be_bytes_small. exact G.
  - rewrite !app_length, L2, L4. cbn. lia.
Qed.

(** * Configuration page *)
Lemma header_decodes : forall t, type_ok t -> decodes header_data header_object (elem_obj type_descriptor_header 4) t.
Proof.
  intros t (T & E & S & X & L). split; [discriminate|].
  assert (O : bytes_ok (header_data t)).
  { unfold header_data. repeat constructor; unfold is_byte, byte_ok, zlen in *; lia. }
  split; [exact O|]. intros rest R. unfold elem_obj, type_descriptor_header.
  rewrite (unpack_layout_all _ _ [("element_type", Num 0 1); ("possible_elements_num", SNum 1 2); ("subenclosure_identifier", SNum 2 3);
     ("type_descriptor_text_length", SNum 3 4)]); [|reflexivity|apply bytes_ok_app; auto].
  reflexivity.
Qed.
Lemma enclosure_data_ok : forall e, enclosure_ok e -> bytes_ok (enclosure_data e).
Proof.
  intros e (R & P & I & [L _] & [V _] & [D _] & [W _] & X & N & T & C). unfold enclosure_data.
  apply bytes_ok_app. split.
  { unfold is_byte, byte_ok, zlen in *. constructor; [unfold byte_ok; lia|]. constructor; [unfold byte_ok; lia|].
    constructor; [unfold byte_ok; lia|]. constructor; [unfold byte_ok; lia|]. constructor. }
  apply bytes_ok_app. split; [exact L|]. apply bytes_ok_app. split; [exact V|]. apply bytes_ok_app. split; [exact D|].
  apply bytes_ok_app. split; [exact W|exact X].
Qed.
Lemma slice_in : forall a b (l1 l2 r : bytes), length l1 = a -> length l2 = (b - a)%nat -> slice a b (l1 ++ l2 ++ r)%list = l2.
Proof.
  intros a b l1 l2 r H1 H2. unfold slice. rewrite skipn_exactly by exact H1. rewrite <- H2.
  rewrite firstn_app, Nat.sub_diag, firstn_all. cbn [firstn]. apply app_nil_r.
Qed.
Lemma enclosure_decodes : forall e, enclosure_ok e -> decodes enclosure_data enclosure_object enclosure_element e.
Proof.
  intros e K. split; [discriminate|]. split; [apply enclosure_data_ok; exact K|]. intros rest R.
  assert (O : bytes_ok (enclosure_data e ++ rest)%list) by (apply bytes_ok_app; split; [apply enclosure_data_ok; exact K|exact R]).
  assert (LE : length (enclosure_data e) = (40 + length (e_extra e))%nat).
  { destruct K as (_ & _ & _ & [_ L] & [_ V] & [_ D] & [_ W] & _). unfold enclosure_data. rewrite !app_length, L, V, D, W. reflexivity. }
  unfold enclosure_element, unpack, enclosure_descriptor. cbn [c_fields c_name].
  rewrite (unpack_layout _ [("enclosure_services_processes_num", Bits 0 0 3);
    ("relative_enclosure_services_process_identifier", Bits 0 4 3); ("subenclosure_identifier", SNum 1 2);
    ("type_descriptor_headers_num", SNum 2 3); ("enclosure_descriptor_length", Num 3 4)]) by (auto; reflexivity).
  match goal with |- context [layout_end ?l] => change (layout_end l) with 4%nat end.
  rewrite app_length, LE. replace (4 <=? 40 + length (e_extra e) + length rest)%nat with true by (symmetry; apply Nat.leb_le; lia).
  match goal with |- context [unpack_fields ?k ([] ++ layout_values ?l ?b)%list ?b] =>
    replace ([] ++ layout_values l b)%list with
      [("enclosure_services_processes_num", PInt (e_processes e));
       ("relative_enclosure_services_process_identifier", PInt (e_relative e));
       ("subenclosure_identifier", PInt (signed 1 (e_identifier e)));
       ("type_descriptor_headers_num", PInt (signed 1 (zlen (e_types e))));
       ("enclosure_descriptor_length", PInt (36 + zlen (e_extra e)))] end.
  2:{ destruct K as (B1 & B2 & _). cbn [app layout_values map fst snd loc_value]. unfold bf.
      change (byte_at 0 (enclosure_data e ++ rest)%list) with (e_processes e + 16 * e_relative e).
      replace ((e_processes e + 16 * e_relative e) / 2 ^ Z.of_nat 0 mod 2 ^ Z.of_nat 3) with (e_processes e)
        by (change (2 ^ Z.of_nat 0) with 1; change (2 ^ Z.of_nat 3) with 8; Z.to_euclidean_division_equations; lia).
      replace ((e_processes e + 16 * e_relative e) / 2 ^ Z.of_nat 4 mod 2 ^ Z.of_nat 3) with (e_relative e)
        by (change (2 ^ Z.of_nat 4) with 16; change (2 ^ Z.of_nat 3) with 8; Z.to_euclidean_division_equations; lia).
      reflexivity. }
  destruct K as (_ & _ & _ & [_ L] & [_ V] & [_ D] & [_ W] & X & N & T & C).
  unfold r_bytes, r_str, upto, plus. do 5 (rewrite uf_cons; cbn [bind app]).
  change (int_attr "enclosure_descriptor_length" _) with (36 + zlen (e_extra e)).
  assert (S1 : slice 4 (Z.to_nat 12) (enclosure_data e ++ rest)%list = e_logical e).
  { unfold enclosure_data. rewrite <- !app_assoc. apply slice_in; [reflexivity|exact L]. }
  assert (S2 : slice 12 (Z.to_nat 20) (enclosure_data e ++ rest)%list = e_vendor e).
  { unfold enclosure_data. rewrite <- !app_assoc. rewrite (app_assoc [_; _; _; _]).
    apply slice_in; [rewrite app_length, L; reflexivity|exact V]. }
  assert (S3 : slice 20 (Z.to_nat 36) (enclosure_data e ++ rest)%list = e_product e).
  { unfold enclosure_data. rewrite <- !app_assoc. rewrite (app_assoc [_; _; _; _]), (app_assoc (_ ++ e_logical e)%list).
    apply slice_in; [rewrite !app_length, L, V; reflexivity|exact D]. }
  assert (S4 : slice 36 (Z.to_nat 40) (enclosure_data e ++ rest)%list = e_revision e).
  { unfold enclosure_data. rewrite <- !app_assoc. rewrite (app_assoc [_; _; _; _]), (app_assoc (_ ++ e_logical e)%list),
      (app_assoc (_ ++ e_vendor e)%list).
    apply slice_in; [rewrite !app_length, L, V, D; reflexivity|exact W]. }
  assert (S5 : slice 40 (Z.to_nat (4 + (36 + zlen (e_extra e)))) (enclosure_data e ++ rest)%list = e_extra e).
  { unfold enclosure_data. rewrite <- !app_assoc. rewrite (app_assoc [_; _; _; _]), (app_assoc (_ ++ e_logical e)%list),
      (app_assoc (_ ++ e_vendor e)%list), (app_assoc (_ ++ e_product e)%list).
    apply slice_in; [rewrite !app_length, L, V, D, W; reflexivity|unfold zlen; lia]. }
  rewrite S1, S2, S3, S4, S5. cbn [unpack_fields bind].
  change (obj_int "enclosure_descriptor_length" _) with (Ok (36 + zlen (e_extra e))). cbn [bind].
  f_equal. f_equal. unfold zlen. lia.
Qed.

Lemma sum_headers_spec : forall l, sum_headers (map enclosure_object l) = Ok (counted l).
Proof.
  induction l as [|e l IH]; [reflexivity|]. cbn [map sum_headers].
  change (obj_int "type_descriptor_headers_num" (enclosure_object e)) with (Ok (signed 1 (zlen (e_types e)))).
  cbn [bind]. rewrite IH. reflexivity.
Qed.
Lemma signed1_le : forall v, 0 <= v -> signed 1 v <= v.
Proof. intros v H. unfold signed. change (2 ^ (8 * Z.of_nat 1)) with 256. destruct (_ <=? v); lia. Qed.
Lemma counted_le : forall l, counted l <= zlen (all_types l).
Proof.
  induction l as [|e l IH]; [cbn; unfold zlen; cbn; lia|]. unfold all_types in *. cbn [flat_map counted fold_right]. fold (counted l).
  unfold zlen in *. rewrite app_length. pose proof (signed1_le (Z.of_nat (length (e_types e))) ltac:(lia)). lia.
Qed.
Lemma signed1_small : forall v, v < 128 -> signed 1 v = v.
Proof. intros v H. unfold signed. change (2 ^ (8 * Z.of_nat 1 - 1)) with 128. destruct (Z.leb_spec 128 v); lia. Qed.
Lemma signed1_big : forall v, 128 <= v -> signed 1 v = v - 256.
Proof. intros v H. unfold signed. change (2 ^ (8 * Z.of_nat 1 - 1)) with 128. destruct (Z.leb_spec 128 v); [reflexivity|lia]. Qed.
Lemma counted_all : forall l, Forall (fun e => zlen (e_types e) < 128) l -> counted l = zlen (all_types l).
Proof.
  induction l as [|e l IH]; intros F; [reflexivity|]. inversion F as [|? ? H1 H2]; subst.
  unfold all_types in *. cbn [flat_map counted fold_right]. fold (counted l). rewrite IH by exact H2.
  rewrite signed1_small by exact H1. unfold zlen. rewrite app_length. lia.
Qed.
Lemma types_ok : forall l, Forall enclosure_ok l -> Forall type_ok (all_types l).
Proof.
  intros l F. unfold all_types. induction F as [|e l K F IH]; cbn [flat_map]; [constructor|].
  apply Forall_app. split; [apply K|exact IH].
Qed.
Lemma texts_ok : forall l, Forall type_ok l -> bytes_ok (flat_map t_text l).
Proof.
  intros l F. induction F as [|t l K F IH]; cbn [flat_map]; [constructor|]. apply bytes_ok_app. split; [apply K|exact IH].
Qed.
Lemma headers_ok : forall l, Forall type_ok l -> Forall (decodes header_data header_object (elem_obj type_descriptor_header 4)) l.
Proof. intros l F. eapply Forall_impl; [|exact F]. apply header_decodes. Qed.
Lemma body_ok : forall l, Forall enclosure_ok l -> bytes_ok (configuration_body l).
Proof.
  intros l F. unfold configuration_body. apply bytes_ok_app. split.
  - apply (enc_ok enclosure_data enclosure_object enclosure_element). eapply Forall_impl; [|exact F]. apply enclosure_decodes.
  - apply bytes_ok_app. split; [apply (enc_ok header_data header_object (elem_obj type_descriptor_header 4)), headers_ok, types_ok; exact F|].
    apply texts_ok, types_ok. exact F.
Qed.

Definition configuration_layout : layout :=
  [("page_code", SNum 0 1); ("secondary_subenclosures_num", SNum 1 2); ("page_length", SNum 2 4); ("generation_code", SNum 4 8)].
Lemma configuration_head : forall gen b1 body rest, is_byte b1 -> bytes_ok body -> bytes_ok rest -> 4 + zlen body < 65536 -> 0 <= gen < 2 ^ 32 ->
  unpack_fields (map reader_of configuration_fields) [] (ses_page 1 b1 gen body ++ rest)%list =
  Ok [("page_code", PInt 1); ("secondary_subenclosures_num", PInt (signed 1 b1)); ("page_length", PInt (signed 2 (4 + zlen body)));
      ("generation_code", PInt (signed 4 gen))].
Proof.
  intros gen b1 body rest B O R L G.
  destruct (ses_page_values 1 b1 gen body rest L G) as (V0 & V1 & _ & V2 & V4 & _ & N).
  rewrite <- (app_nil_r (map reader_of configuration_fields)).
  rewrite (unpack_layout _ configuration_layout) by (try reflexivity; apply ses_page_ok; auto; unfold is_byte; lia).
  change (layout_end configuration_layout) with 8%nat. too_short.
  cbn [unpack_fields app configuration_layout layout_values map fst snd loc_value].
  rewrite !sb_signed by lia. rewrite V0, V1, V2, V4. reflexivity.
Qed.

Lemma configuration_general : forall negative gen l rest, Forall enclosure_ok l -> l <> [] -> (length l <= 128)%nat ->
  0 <= gen < 2 ^ 32 -> 4 + zlen (configuration_body l) < 65536 -> bytes_ok rest ->
  let n := Z.to_nat (counted l) in
  configuration negative (configuration_page gen l ++ rest)%list =
  do texts <- per_header (text_element negative) (map header_object (firstn n (all_types l)))
                (flat_map header_data (skipn n (all_types l)) ++ flat_map t_text (all_types l) ++ rest)%list;
  Ok (configuration_object gen (zlen (configuration_body l)) (zlen l - 1) (map enclosure_object l)
        (map header_object (firstn n (all_types l))) texts).
Proof.
  intros negative gen l rest F NE LE G LB R n. unfold configuration, configuration_page.
  assert (LP : (0 < length l)%nat) by (destruct l; [contradiction|cbn; lia]).
  assert (IB : is_byte (zlen l - 1)) by (unfold is_byte, zlen; lia).
  rewrite configuration_head by (auto using body_ok). cbn [bind].
  destruct (ses_page_values 1 (zlen l - 1) gen (configuration_body l) rest LB G) as (_ & _ & _ & _ & _ & SK & _).
  rewrite SK. change (int_attr "secondary_subenclosures_num" _) with (signed 1 (zlen l - 1)).
  rewrite signed1_small by (unfold zlen; lia). replace (Z.to_nat (zlen l - 1 + 1)) with (length l) by (unfold zlen; lia).
  assert (TO := types_ok l F).
  assert (RO : bytes_ok (flat_map t_text (all_types l) ++ rest)%list) by (apply bytes_ok_app; split; [apply texts_ok; exact TO|exact R]).
  assert (HO : forall m, Forall type_ok m -> bytes_ok (flat_map header_data m)).
  { intros m M. apply (enc_ok header_data header_object (elem_obj type_descriptor_header 4)), headers_ok, M. }
  assert (E1 : (configuration_body l ++ rest = flat_map enclosure_data l ++ (flat_map header_data (all_types l) ++ flat_map t_text (all_types l) ++ rest))%list).
  { unfold configuration_body. rewrite <- !app_assoc. reflexivity. }
  rewrite E1. rewrite (list_n_enc enclosure_data enclosure_object);
    [|eapply Forall_impl; [|exact F]; apply enclosure_decodes|apply bytes_ok_app; split; [apply HO; exact TO|exact RO]].
  cbn [bind]. rewrite sum_headers_spec. cbn [bind]. fold n.
  assert (E2 : skipn (8 + length (flat_map enclosure_data l)) (ses_page 1 (zlen l - 1) gen (configuration_body l) ++ rest)%list =
               (flat_map header_data (all_types l) ++ flat_map t_text (all_types l) ++ rest)%list).
  { rewrite <- skipn_skipn', SK, E1. apply skipn_exactly. reflexivity. }
  rewrite E2.
  assert (E3 : (flat_map header_data (all_types l) = flat_map header_data (firstn n (all_types l)) ++ flat_map header_data (skipn n (all_types l)))%list).
  { rewrite <- flat_map_app, firstn_skipn. reflexivity. }
  assert (LN : length (firstn n (all_types l)) = n).
  { rewrite firstn_length. pose proof (counted_le l). unfold n, zlen in *. lia. }
  assert (FT : Forall type_ok (firstn n (all_types l))).
  { rewrite <- (firstn_skipn n (all_types l)) in TO. apply Forall_app in TO. apply TO. }
  assert (ST : Forall type_ok (skipn n (all_types l))).
  { rewrite <- (firstn_skipn n (all_types l)) in TO. apply Forall_app in TO. apply TO. }
  assert (E4 : list_n (elem_obj type_descriptor_header 4) n
                 (flat_map header_data (all_types l) ++ flat_map t_text (all_types l) ++ rest)%list =
               Ok (map header_object (firstn n (all_types l)), length (flat_map header_data (firstn n (all_types l))))).
  { rewrite E3, <- app_assoc. rewrite <- LN at 1. apply list_n_enc; [apply headers_ok; exact FT|].
    apply bytes_ok_app. split; [apply HO; exact ST|exact RO]. }
  rewrite E4. cbn [bind].
  assert (E5 : skipn (8 + length (flat_map enclosure_data l) + length (flat_map header_data (firstn n (all_types l))))
                 (ses_page 1 (zlen l - 1) gen (configuration_body l) ++ rest)%list =
               (flat_map header_data (skipn n (all_types l)) ++ flat_map t_text (all_types l) ++ rest)%list).
  { rewrite <- skipn_skipn', E2, E3, <- app_assoc. apply skipn_exactly. reflexivity. }
  rewrite E5. unfold configuration_object. rewrite signed1_small by (unfold zlen; lia). reflexivity.
Qed.

Lemma texts_spec : forall negative l rest, Forall type_ok l -> Forall (fun t => zlen (t_text t) < 128) l -> bytes_ok rest ->
  per_header (text_element negative) (map header_object l) (flat_map t_text l ++ rest)%list = Ok (map (fun t => PBytes (t_text t)) l).
Proof.
  intros negative l rest F S R. apply per_header_enc; [|exact R].
  rewrite Forall_forall in *. intros t I. specialize (F t I). specialize (S t I). split; [apply F|].
  intros r _. unfold text_element.
  change (obj_int "type_descriptor_text_length" (header_object t)) with (Ok (signed 1 (zlen (t_text t)))). cbn [bind].
  rewrite signed1_small by exact S. replace (zlen (t_text t) <? 0) with false by (symmetry; apply Z.ltb_ge; unfold zlen; lia).
  unfold zlen. rewrite Nat2Z.id. rewrite slice0 by reflexivity. reflexivity.
Qed.

Lemma configuration_spec : forall negative gen l rest, Forall enclosure_ok l -> l <> [] -> (length l <= 128)%nat ->
  Forall (fun e => zlen (e_types e) < 128) l -> Forall (fun t => zlen (t_text t) < 128) (all_types l) ->
  0 <= gen < 2 ^ 32 -> 4 + zlen (configuration_body l) < 65536 -> bytes_ok rest ->
  configuration negative (configuration_page gen l ++ rest)%list = Ok (whole_configuration gen l).
Proof.
  intros negative gen l rest F NE LE FC FT G LB R. rewrite configuration_general by assumption. cbv zeta.
  rewrite counted_all by exact FC. unfold zlen at 1 2 5. rewrite Nat2Z.id, skipn_all, firstn_all. cbn [flat_map app].
  rewrite texts_spec by (auto using types_ok). reflexivity.
Qed.

Lemma configuration_lost : forall negative gen l rest v, Forall enclosure_ok l -> l <> [] -> (length l <= 128)%nat ->
  0 <= gen < 2 ^ 32 -> 4 + zlen (configuration_body l) < 65536 -> bytes_ok rest ->
  configuration negative (configuration_page gen l ++ rest)%list = Ok v ->
  exists texts, v = configuration_object gen (zlen (configuration_body l)) (zlen l - 1) (map enclosure_object l)
    (map header_object (firstn (Z.to_nat (counted l)) (all_types l))) texts.
Proof.
  intros negative gen l rest v F NE LE G LB R. rewrite configuration_general by assumption. cbv zeta.
  destruct (per_header _ _ _) as [texts|]; [|discriminate]. cbn [bind]. intros E. apply ok_same in E. subst v. exists texts. reflexivity.
Qed.

Lemma configuration_many : forall negative gen l rest, Forall enclosure_ok l -> (128 < length l <= 256)%nat ->
  0 <= gen < 2 ^ 32 -> 4 + zlen (configuration_body l) < 65536 -> bytes_ok rest ->
  configuration negative (configuration_page gen l ++ rest)%list =
  Ok (configuration_object gen (zlen (configuration_body l)) (zlen l - 1) [] [] []).
Proof.
  intros negative gen l rest F LE G LB R. unfold configuration, configuration_page.
  assert (IB : is_byte (zlen l - 1)) by (unfold is_byte, zlen; lia).
  rewrite configuration_head by (auto using body_ok). cbn [bind].
  change (int_attr "secondary_subenclosures_num" _) with (signed 1 (zlen l - 1)).
  assert (E : Z.to_nat (signed 1 (zlen l - 1) + 1) = 0%nat) by (rewrite signed1_big by (unfold zlen; lia); unfold zlen; lia).
  rewrite E. reflexivity.
Qed.

(** * Status page *)
Definition status_head_layout : layout :=
  [("page_code", SNum 0 1); ("unrecov", flag 1 0); ("crit", flag 1 1); ("non_crit", flag 1 2); ("info", flag 1 3); ("invop", flag 1 4);
   ("page_length", SNum 2 4); ("generation_code", SNum 4 8)].
Lemma status_head : forall gen b1 body rest, is_byte b1 -> bytes_ok body -> bytes_ok rest -> 4 + zlen body < 65536 -> 0 <= gen < 2 ^ 32 ->
  unpack_fields (map reader_of status_page_fields) [] (ses_page 2 b1 gen body ++ rest)%list =
  Ok [("page_code", PInt 2); ("unrecov", PInt (b1 mod 2)); ("crit", PInt (b1 / 2 mod 2)); ("non_crit", PInt (b1 / 4 mod 2));
      ("info", PInt (b1 / 8 mod 2)); ("invop", PInt (b1 / 16 mod 2)); ("page_length", PInt (signed 2 (4 + zlen body)));
      ("generation_code", PInt (signed 4 gen))].
Proof.
  intros gen b1 body rest B O R L G.
  destruct (ses_page_values 2 b1 gen body rest L G) as (V0 & _ & V1 & V2 & V4 & _ & N).
  rewrite <- (app_nil_r (map reader_of status_page_fields)).
  rewrite (unpack_layout _ status_head_layout) by (try reflexivity; apply ses_page_ok; auto; unfold is_byte; lia).
  change (layout_end status_head_layout) with 8%nat. too_short.
  cbn [unpack_fields app status_head_layout flag layout_values map fst snd loc_value]. unfold bf.
  rewrite !sb_signed by lia. rewrite V0, V1, V2, V4. change (2 ^ Z.of_nat 0) with 1. rewrite Z.div_1_r. reflexivity.
Qed.

Lemma text_decodes : forall type e, text_of_length 4 e ->
  decodes (fun e => e) (element_object type) (elem_obj (element_class type) 4) e.
Proof.
  intros type e [O N]. split; [destruct e; discriminate|]. split; [exact O|].
  intros rest R. rewrite element_spec by (auto; split; assumption). rewrite N. reflexivity.
Qed.
Lemma status_group_ok : forall g, Forall (text_of_length 4) (g_overall g :: g_elements g) -> bytes_ok (group_data (fun e => e) g).
Proof.
  intros g F. inversion F as [|? ? [O _] FE]; subst. unfold group_data. apply bytes_ok_app. split; [exact O|].
  apply (enc_ok (fun e => e) (element_object 0) (elem_obj (element_class 0) 4)).
  eapply Forall_impl; [|exact FE]. apply text_decodes.
Qed.
Lemma status_descriptor_spec : forall g rest, Forall (text_of_length 4) (g_overall g :: g_elements g) ->
  zlen (g_elements g) = Z.of_nat (Z.to_nat (signed 1 (t_elements (g_type g)))) -> bytes_ok rest ->
  status_descriptor (header_object (g_type g)) (group_data (fun e => e) g ++ rest)%list =
  Ok (status_group_object g, length (group_data (fun e => e) g)).
Proof.
  intros g rest F C R. inversion F as [|? ? [O N] FE]; subst. unfold status_descriptor.
  change (obj_int "element_type" (header_object (g_type g))) with (Ok (t_type (g_type g))).
  change (obj_int "possible_elements_num" (header_object (g_type g))) with (Ok (signed 1 (t_elements (g_type g)))). cbn [bind].
  unfold group_data. rewrite <- app_assoc. rewrite slice0 by exact N.
  pose proof (general_element (g_overall g) [] (conj O N) ltac:(constructor)) as GE. rewrite app_nil_r in GE.
  unfold elem_obj in GE. destruct (unpack general_status (g_overall g)) as [o|] eqn:U; [|discriminate].
  cbn [bind] in GE. apply ok_same in GE. apply pair_equal_spec in GE. destruct GE as [-> _]. cbn [bind].
  rewrite skipn_exactly by exact N. replace (Z.to_nat (signed 1 (t_elements (g_type g)))) with (length (g_elements g)) by (unfold zlen in C; lia).
  rewrite (list_n_enc (fun e => e) (element_object (t_type (g_type g)))); [|eapply Forall_impl; [|exact FE]; apply text_decodes|exact R].
  cbn [bind]. rewrite app_length, N. reflexivity.
Qed.
Lemma complete_signed : forall {A} (g : group A), group_complete g -> t_elements (g_type g) < 128 ->
  zlen (g_elements g) = Z.of_nat (Z.to_nat (signed 1 (t_elements (g_type g)))).
Proof. intros A g C L. unfold group_complete in C. rewrite signed1_small by exact L. unfold zlen in *. lia. Qed.

Lemma header_list_spec : forall gen l, header_list (whole_configuration gen l) = Ok (map header_object (all_types l)).
Proof. reflexivity. Qed.
Lemma status_body_ok : forall gs, Forall (fun g => Forall (text_of_length 4) (g_overall g :: g_elements g)) gs -> bytes_ok (status_body gs).
Proof.
  intros gs F. unfold status_body. induction F as [|g gs K F IH]; cbn [flat_map]; [constructor|].
  apply bytes_ok_app. split; [apply status_group_ok; exact K|exact IH].
Qed.
Lemma status_page_spec : forall cgen l flags gen gs rest, map g_type gs = all_types l ->
  Forall (fun g => group_complete g /\ t_elements (g_type g) < 128 /\ Forall (text_of_length 4) (g_overall g :: g_elements g)) gs ->
  is_byte flags -> 0 <= gen < 2 ^ 32 -> 4 + zlen (status_body gs) < 65536 -> bytes_ok rest ->
  enclosure_status (whole_configuration cgen l) (status_page flags gen gs ++ rest)%list =
  Ok (status_page_object flags gen (zlen (status_body gs)) (map status_group_object gs)).
Proof.
  intros cgen l flags gen gs rest T F B G L R. unfold enclosure_status, status_page.
  assert (O : bytes_ok (status_body gs)).
  { apply status_body_ok. eapply Forall_impl; [|exact F]. intros g (_ & _ & K). exact K. }
  rewrite status_head by assumption. cbn [bind]. rewrite header_list_spec. cbn [bind].
  destruct (ses_page_values 2 flags gen (status_body gs) rest L G) as (_ & _ & _ & _ & _ & SK & _). rewrite SK.
  rewrite <- T, map_map. unfold status_body.
  rewrite (per_header_enc (fun g => header_object (g_type g)) (group_data (fun e => e)) status_group_object); [reflexivity| |exact R].
  eapply Forall_impl; [|exact F]. intros g (C & S & K). split; [apply status_group_ok; exact K|].
  intros r RO. apply status_descriptor_spec; [exact K|apply complete_signed; assumption|exact RO].
Qed.
(** With more than 127 elements of a type. *)
Lemma status_descriptor_many : forall g rest, Forall (text_of_length 4) (g_overall g :: g_elements g) ->
  128 <= t_elements (g_type g) < 256 -> bytes_ok rest ->
  status_descriptor (header_object (g_type g)) (group_data (fun e => e) g ++ rest)%list =
  Ok (group_object "StatusDescriptor" general_object (fun t => element_object (t_type t)) (Group (g_type g) (g_overall g) []), 4%nat).
Proof.
  intros g rest F C R.
  assert (K : (group_data (fun e => e) g ++ rest = group_data (fun e => e) (Group (g_type g) (g_overall g) []) ++ (flat_map (fun e => e) (g_elements g) ++ rest))%list).
  { unfold group_data. cbn [g_overall g_elements flat_map]. rewrite app_nil_r, <- app_assoc. reflexivity. }
  inversion F as [|? ? [O N] FE]; subst.
  rewrite K. change (g_type g) with (g_type (Group (g_type g) (g_overall g) [])) at 1. rewrite status_descriptor_spec.
  - unfold group_data. cbn [g_overall g_elements flat_map]. rewrite app_nil_r, N. reflexivity.
  - repeat constructor; assumption.
  - cbn [g_type g_elements]. rewrite signed1_big by lia. unfold zlen. cbn [length]. lia.
  - apply bytes_ok_app. split; [|exact R].
    apply (enc_ok (fun e => e) (element_object 0) (elem_obj (element_class 0) 4)). eapply Forall_impl; [|exact FE]. apply text_decodes.
Qed.

(** * Element descriptor page *)
Definition text_ok (b : bytes) : Prop := bytes_ok b /\ zlen b < 32768.
Lemma element_text_ok : forall t, bytes_ok t -> bytes_ok (element_text t).
Proof.
  intros t O. unfold element_text. apply bytes_ok_app. split; [repeat constructor; unfold byte_ok; lia|].
  apply bytes_ok_app. split; [apply be_bytes_ok|exact O].
Qed.
Lemma element_text_decodes : forall t, text_ok t -> decodes element_text element_text_object descriptor_element t.
Proof.
  intros t [O S]. split; [discriminate|]. split; [apply element_text_ok; exact O|]. intros rest R.
  assert (K : bytes_ok (element_text t ++ rest)%list) by (apply bytes_ok_app; split; [apply element_text_ok; exact O|exact R]).
  assert (L : length (element_text t) = (4 + length t)%nat).
  { unfold element_text. rewrite !app_length, be_bytes_length. reflexivity. }
  unfold descriptor_element, unpack, descriptor. cbn [c_fields c_name]. rewrite uf_sb by (auto; lia).
  replace (4 <=? length (element_text t ++ rest))%nat with true by (symmetry; apply Nat.leb_le; rewrite app_length, L; lia).
  assert (V : sb 2 4 (element_text t ++ rest)%list = zlen t).
  { rewrite sb_signed by lia. unfold element_text. rewrite <- !app_assoc. rewrite (ub_in 2 4 [0; 0] (be_bytes 2 (zlen t))) by (auto using be_bytes_length).
    rewrite be_val_be_bytes_small by (change (256 ^ Z.of_nat 2) with 65536; unfold zlen in *; lia).
    unfold signed. change (2 ^ (8 * Z.of_nat (4 - 2) - 1)) with 32768. destruct (Z.leb_spec 32768 (zlen t)); [lia|reflexivity]. }
  rewrite V. cbn [app]. rewrite uf_cons. unfold r_bytes, plus. change (int_attr "descriptor_length" _) with (zlen t).
  assert (S4 : slice 4 (Z.to_nat (4 + zlen t)) (element_text t ++ rest)%list = t).
  { unfold element_text. rewrite <- !app_assoc. rewrite (app_assoc [0; 0]). apply slice_in; [rewrite app_length, be_bytes_length; reflexivity|unfold zlen; lia]. }
  rewrite S4. cbn [bind app unpack_fields]. change (obj_int "descriptor_length" _) with (Ok (zlen t)). cbn [bind].
  unfold element_text_object. do 2 f_equal. rewrite L. unfold zlen. lia.
Qed.
Lemma text_group_ok : forall g, Forall text_ok (g_overall g :: g_elements g) -> bytes_ok (group_data element_text g).
Proof.
  intros g F. inversion F as [|? ? [O _] FE]; subst. unfold group_data. apply bytes_ok_app. split; [apply element_text_ok; exact O|].
  apply (enc_ok element_text element_text_object descriptor_element). eapply Forall_impl; [|exact FE]. apply element_text_decodes.
Qed.
Lemma element_descriptor_spec : forall g rest, Forall text_ok (g_overall g :: g_elements g) ->
  zlen (g_elements g) = Z.of_nat (Z.to_nat (signed 1 (t_elements (g_type g)))) -> bytes_ok rest ->
  element_descriptor (header_object (g_type g)) (group_data element_text g ++ rest)%list =
  Ok (descriptor_group_object g, length (group_data element_text g)).
Proof.
  intros g rest F C R. inversion F as [|? ? K FE]; subst. unfold element_descriptor.
  change (obj_int "possible_elements_num" (header_object (g_type g))) with (Ok (signed 1 (t_elements (g_type g)))). cbn [bind].
  assert (FO : bytes_ok (flat_map element_text (g_elements g))).
  { apply (enc_ok element_text element_text_object descriptor_element). eapply Forall_impl; [|exact FE]. apply element_text_decodes. }
  unfold group_data. rewrite <- app_assoc. destruct (element_text_decodes _ K) as (_ & _ & D).
  rewrite D by (apply bytes_ok_app; split; assumption). cbn [bind]. rewrite skipn_exactly by reflexivity.
  replace (Z.to_nat (signed 1 (t_elements (g_type g)))) with (length (g_elements g)) by (unfold zlen in C; lia).
  rewrite (list_n_enc element_text element_text_object); [|eapply Forall_impl; [|exact FE]; apply element_text_decodes|exact R].
  cbn [bind]. rewrite app_length. reflexivity.
Qed.
(** With more than 127 elements of a type. *)
Lemma element_descriptor_many : forall g rest, Forall (fun t => bytes_ok t /\ zlen t < 32768) (g_overall g :: g_elements g) ->
  128 <= t_elements (g_type g) < 256 -> bytes_ok rest ->
  element_descriptor (header_object (g_type g)) (group_data element_text g ++ rest)%list =
  Ok (descriptor_group_object (Group (g_type g) (g_overall g) []), length (element_text (g_overall g))).
Proof.
  intros g rest F C R.
  assert (K : (group_data element_text g ++ rest = group_data element_text (Group (g_type g) (g_overall g) []) ++ (flat_map element_text (g_elements g) ++ rest))%list).
  { unfold group_data. cbn [g_overall g_elements flat_map]. rewrite app_nil_r, <- app_assoc. reflexivity. }
  inversion F as [|? ? T FE]; subst.
  rewrite K. change (g_type g) with (g_type (Group (g_type g) (g_overall g) [])) at 1. rewrite element_descriptor_spec.
  - unfold group_data. cbn [g_overall g_elements flat_map]. rewrite app_nil_r. reflexivity.
  - constructor; [exact T|constructor].
  - cbn [g_type g_elements]. rewrite signed1_big by lia. unfold zlen. cbn [length]. lia.
  - apply bytes_ok_app. split; [|exact R].
    apply (enc_ok element_text element_text_object descriptor_element). eapply Forall_impl; [|exact FE]. apply element_text_decodes.
Qed.
Definition descriptor_head_layout : layout := [("page_code", SNum 0 1); ("page_length", SNum 2 4); ("generation_code", SNum 4 8)].
Lemma descriptor_page_spec : forall cgen l gen gs rest, map g_type gs = all_types l ->
  Forall (fun g => group_complete g /\ t_elements (g_type g) < 128 /\
                   Forall (fun t => bytes_ok t /\ zlen t < 32768) (g_overall g :: g_elements g)) gs ->
  0 <= gen < 2 ^ 32 -> 4 + zlen (descriptor_body gs) < 65536 -> bytes_ok rest ->
  element_descriptors (whole_configuration cgen l) (descriptor_page gen gs ++ rest)%list =
  Ok (descriptor_page_object gen (zlen (descriptor_body gs)) (map descriptor_group_object gs)).
Proof.
  intros cgen l gen gs rest T F G L R. unfold element_descriptors, descriptor_page.
  assert (O : bytes_ok (descriptor_body gs)).
  { unfold descriptor_body. clear -F. induction F as [|g gs (_ & _ & K) F IH]; cbn [flat_map]; [constructor|].
    apply bytes_ok_app. split; [apply text_group_ok; exact K|exact IH]. }
  destruct (ses_page_values 7 0 gen (descriptor_body gs) rest L G) as (V0 & _ & _ & V2 & V4 & SK & N).
  rewrite <- (app_nil_r (map reader_of descriptor_page_fields)).
  rewrite (unpack_layout _ descriptor_head_layout) by (try reflexivity; apply ses_page_ok; auto; unfold is_byte; lia).
  change (layout_end descriptor_head_layout) with 8%nat. too_short. cbn [unpack_fields bind].
  rewrite header_list_spec. cbn [bind]. rewrite SK. rewrite <- T, map_map. unfold descriptor_body at 1.
  rewrite (per_header_enc (fun g => header_object (g_type g)) (group_data element_text) descriptor_group_object); [| |exact R].
  - cbn [bind app descriptor_head_layout layout_values map fst snd loc_value]. rewrite !sb_signed by lia. rewrite V0, V2, V4. reflexivity.
  - eapply Forall_impl; [|exact F]. intros g (C & S & K). split; [apply text_group_ok; exact K|].
    intros r RO. apply element_descriptor_spec; [exact K|apply complete_signed; assumption|exact RO].
Qed.

(** * Other pages and dispatch *)
Lemma small_page_spec : forall name last buf, bytes_ok buf ->
  unpack (PyClass name [("page_code", r_sint (bytes_of 0 1)); ("page_length", r_sint (bytes_of 2 4)); (last, r_list (elem_uint 1) 4 to_end)]) buf =
  if (4 <=? length buf)%nat
  then Ok (PObj name [("page_code", PInt (sb 0 1 buf)); ("page_length", PInt (sb 2 4 buf)); (last, PList (map PInt (skipn 4 buf)))])
  else Err EInstruct.
Proof.
  intros name last buf O. unfold unpack. cbn [c_fields c_name]. rewrite uf_sb by (auto; lia).
  destruct (Nat.leb_spec 4 (length buf)) as [L|L].
  - too_short. rewrite uf_sb by (auto; lia). too_short. rewrite uf_cons. unfold r_list at 1, to_end, zlen.
    rewrite Nat2Z.id, slice_all by lia. unfold read_list. rewrite list_all_bytes by (try apply bytes_ok_skipn; auto).
    reflexivity.
  - destruct (1 <=? length buf)%nat; [|reflexivity]. rewrite uf_sb by (auto; lia). too_short. reflexivity.
Qed.
Lemma unknown_diagnostic_spec : forall buf, bytes_ok buf -> (2 <= length buf)%nat ->
  unpack unknown_diagnostic_page buf =
  Ok (PObj "UnknownDiagnosticPageData" [("page_code", PInt (sb 0 1 buf)); ("page_data", PInt (sb 1 (length buf) buf))]).
Proof.
  intros buf O L. unfold unpack, unknown_diagnostic_page. cbn [c_fields c_name]. rewrite uf_sb by (auto; lia). too_short.
  rewrite uf_cons. unfold r_sint, r_int. rewrite read_sbytes by (auto; lia). too_short. reflexivity.
Qed.

Lemma ses_arity : forall lib code args, length args <> ses_arguments code -> get_ses_page lib code args = Err EType.
Proof.
  intros lib code args. unfold get_ses_page, ses_arguments.
  destruct code as [|p|p]; [|do 8 (try destruct p as [p|p|])|];
    (destruct args as [|a [|b r]]; cbn [orb Z.eqb Pos.eqb length]; intros H; try reflexivity; try (exfalso; apply H; reflexivity)).
Qed.
Lemma ses_make : forall lib code args, length args = ses_arguments code ->
  get_ses_page lib code args =
  receive_diagnostic code (ses_allocation code) (get_ses_page_data lib code (hd PNone args)).
Proof.
  intros lib code args. unfold get_ses_page, ses_arguments, ses_allocation.
  destruct code as [|p|p]; [|do 8 (try destruct p as [p|p|])|];
    (destruct args as [|a [|b r]]; cbn [orb Z.eqb Pos.eqb length]; intros H; try reflexivity; try discriminate H).
Qed.
Lemma ses_allocation_range : forall code, 0 <= ses_allocation code < 65536.
Proof. intros. unfold ses_allocation. destruct (_ || _); [lia|]. destruct (_ || _); lia. Qed.
Lemma ses_dispatch : forall lib code args,
  if (length args =? ses_arguments code)%nat
  then asks (do o <- get_ses_page lib code args; request o) (0 <= code < 2 ^ 8) (ses_allocation code)
         (OpReceiveDiagnostic 1 code (ses_allocation code)) /\
       forall o d, get_ses_page lib code args = Ok o ->
         o_finish o (o_attrs o) (Some d) = get_ses_page_data lib code (hd PNone args) d
  else get_ses_page lib code args = Err EType.
Proof.
  intros lib code args. destruct (Nat.eqb_spec (length args) (ses_arguments code)) as [E|E]; [|apply ses_arity; exact E].
  rewrite ses_make by exact E. split.
  - pose proof (receive_diagnostic_spec code (ses_allocation code) (get_ses_page_data lib code (hd PNone args))) as A.
    unfold asks in *. destruct (do o <- _; request o) as [[c n|c d]|e]; [|exact A|].
    + destruct A as ([A _] & B & C). split; [exact A|]. split; [exact B|exact C].
    + intros K. apply A. split; [exact K|]. apply ses_allocation_range.
  - intros o d H. unfold receive_diagnostic in H. apply ok_same in H. subst o. reflexivity.
Qed.
Lemma ses_data_known : forall lib conf buf,
  get_ses_page_data lib 0 conf buf = unpack supported_diagnostic_pages buf /\
  get_ses_page_data lib 1 conf buf = configuration (negative_slice lib) buf /\
  get_ses_page_data lib 2 conf buf = enclosure_status conf buf /\
  get_ses_page_data lib 7 conf buf = element_descriptors conf buf /\
  get_ses_page_data lib 128 conf buf = unpack vendor_0x80_page buf.
Proof. repeat split. Qed.
Lemma ses_data_unknown : forall lib code conf buf, ~ In code [0; 1; 2; 7; 128] -> bytes_ok buf -> (2 <= length buf)%nat ->
  get_ses_page_data lib code conf buf =
  do _ <- plain_keyword lib;
  Ok (PObj "UnknownDiagnosticPageData" [("page_code", PInt (sb 0 1 buf)); ("page_data", PInt (sb 1 (length buf) buf))]).
Proof.
  intros lib code conf buf N O L. unfold get_ses_page_data. rewrite unknown_diagnostic_spec by assumption.
  destruct code as [|p|p]; [|do 8 (try destruct p as [p|p|])|]; try reflexivity; exfalso; apply N; cbn; tauto.
Qed.
