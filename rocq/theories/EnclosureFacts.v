(** Facts about SpecEnclosure.v. *)
From Coq Require Import String ZArith List Bool Lia.
From Verif Require Import Base BaseFacts Gen SpecGen Executer OsCommon Instruct InstructFacts Command CdbPrimary CdbPrimaryFacts CdbPropFacts CdbLemmas ResponseLemmas
  CdbResponseFacts Pages LayoutFacts VpdFacts InquiryFacts Ses SpecDevice SpecCdb CdbAllFacts SpecSg SpecDrivers SpecExecute SpecSense SpecPortable SpecReserve ReserveFacts SpecAdaptive AdaptiveFacts
  SpecAlua SpecLayout SpecSes SesFacts SpecEnclosure.
Import ListNotations.
Local Open Scope string_scope.
Local Open Scope list_scope.
Local Open Scope Z_scope.

(** * Arranging elements *)
Definition needed (types : list element_type) : nat := list_sum (map (fun t => Datatypes.S (Z.to_nat (t_elements t))) types).
Lemma arranged_some : forall types els, (needed types <= length els)%nat -> exists gs, arranged types els = Some gs.
Proof.
  induction types as [|t types IH]; intros els N; [eexists; reflexivity|]. cbn [needed map list_sum fold_right] in N. fold (list_sum (map (fun t => Datatypes.S (Z.to_nat (t_elements t))) types)) in N. fold (needed types) in N.
  destruct els as [|o els]; [cbn in N; lia|]. cbn [arranged length] in *.
  replace (Z.to_nat (t_elements t) <=? length els)%nat with true by (symmetry; apply Nat.leb_le; lia).
  destruct (IH (skipn (Z.to_nat (t_elements t)) els)) as [gs ->]; [rewrite skipn_length; lia|]. eauto.
Qed.
Lemma arranged_spec : forall types els gs, Forall (fun t => 0 <= t_elements t) types ->
  arranged types els = Some gs <-> (map g_type gs = types /\ Forall group_complete gs /\ exists more, els = elements_of gs ++ more).
Proof.
  induction types as [|t types IH]; intros els gs P.
  - cbn [arranged]. split.
    + intros [= <-]. split; [reflexivity|]. split; [constructor|]. exists els. reflexivity.
    + intros (M & _ & _). destruct gs; [reflexivity|discriminate].
  - inversion P as [|? ? P0 P1]; subst. split.
    + intro A. destruct els as [|o els]; [discriminate|]. cbn [arranged] in A.
      destruct (Nat.leb_spec (Z.to_nat (t_elements t)) (length els)) as [L|L]; [|discriminate].
      destruct (arranged types (skipn (Z.to_nat (t_elements t)) els)) as [gs'|] eqn:E; [|discriminate].
      injection A as <-. apply IH in E; [|exact P1]. destruct E as (M & C & more & E). cbn [map g_type]. split; [f_equal; exact M|]. split.
      * constructor; [|exact C]. unfold group_complete. cbn [g_elements g_type]. unfold zlen. rewrite firstn_length. lia.
      * exists more. unfold elements_of. cbn [flat_map g_overall g_elements app]. f_equal. rewrite <- app_assoc.
        change (flat_map (fun g => g_overall g :: g_elements g) gs') with (elements_of gs'). rewrite <- E. symmetry. apply firstn_skipn.
    + intros (M & C & more & E). destruct gs as [|g gs]; [discriminate|]. cbn [map] in M. injection M as <- M.
      inversion C as [|? ? C0 C1]; subst. unfold elements_of. cbn [flat_map app arranged]. fold (elements_of gs).
      unfold group_complete in C0. assert (N : Z.to_nat (t_elements (g_type g)) = length (g_elements g)) by (unfold zlen in C0; lia).
      rewrite N, <- app_assoc. replace (length (g_elements g) <=? _)%nat with true by (symmetry; apply Nat.leb_le; rewrite app_length; lia).
      rewrite skipn_app, skipn_all, Nat.sub_diag. cbn [skipn app].
      replace (arranged (map g_type gs) (elements_of gs ++ more)) with (Some gs) by (symmetry; apply IH; eauto).
      rewrite firstn_app, firstn_all, Nat.sub_diag. cbn [firstn]. rewrite app_nil_r. destruct g; reflexivity.
Qed.

Section Arranged.
Context (enc : bytes -> bytes) (fine : bytes -> Prop) (one : pyval -> element) (obj : group bytes -> pyval).
Hypothesis encoded : forall b, fine b -> bytes_ok (enc b).
Hypothesis complete : forall t o els rest, zlen els = t_elements t -> t_elements t < 128 -> Forall fine (o :: els) -> bytes_ok rest ->
  one (header_object t) (enc o ++ flat_map enc els ++ rest) = Ok (obj (Group t o els), length (enc o ++ flat_map enc els)).
Lemma enc_all : forall els, Forall fine els -> bytes_ok (flat_map enc els).
Proof. intros els F. induction F as [|b els B F IH]; [constructor|]. cbn [flat_map]. apply bytes_ok_app. auto. Qed.
Lemma per_header_arranged : forall types els tail, Forall (fun t => 0 <= t_elements t < 128) types -> Forall fine els -> bytes_ok tail ->
  (arranged types els <> None \/
   forall t l, 0 <= t_elements t < 128 -> Forall fine l -> zlen l <= t_elements t -> one (header_object t) (flat_map enc l ++ tail) = Err EInstruct) ->
  per_header one (map header_object types) (flat_map enc els ++ tail) =
  match arranged types els with Some gs => Ok (map obj gs) | None => Err EInstruct end.
Proof.
  induction types as [|t types IH]; intros els tail P F R H; [reflexivity|]. inversion P as [|? ? P0 P1]; subst. cbn [map per_header].
  destruct els as [|o els].
  - destruct H as [H|H]; [exfalso; apply H; reflexivity|]. rewrite H by (auto; unfold zlen; cbn; lia). reflexivity.
  - cbn [arranged] in *. destruct (Nat.leb_spec (Z.to_nat (t_elements t)) (length els)) as [L|L].
    + set (n := Z.to_nat (t_elements t)) in *.
      assert (X : flat_map enc (o :: els) ++ tail = enc o ++ flat_map enc (firstn n els) ++ flat_map enc (skipn n els) ++ tail).
      { cbn [flat_map]. rewrite <- app_assoc. f_equal. rewrite app_assoc, <- flat_map_app, firstn_skipn. reflexivity. }
      rewrite X. clear X. inversion F as [|? ? F0 F1]; subst.
      assert (F2 : Forall fine (firstn n els) /\ Forall fine (skipn n els)).
      { rewrite <- (firstn_skipn n els), Forall_app in F1. exact F1. }
      destruct F2 as [F2 F3]. rewrite complete; [|unfold zlen; rewrite firstn_length; lia|lia|constructor; assumption|apply bytes_ok_app; split; [apply enc_all; exact F3|exact R]].
      cbn [bind]. rewrite app_assoc, skipn_exactly by reflexivity. rewrite IH; auto.
      * destruct (arranged types (skipn n els)); reflexivity.
      * destruct H as [H|H]; [left|right; exact H]. intro E. apply H. rewrite E. reflexivity.
    + destruct H as [H|H]; [exfalso; apply H; reflexivity|]. rewrite H; auto. unfold zlen. cbn [length]. lia.
Qed.
End Arranged.

Lemma list_n_short : forall {A} (enc : A -> bytes) obj one l n tail e, Forall (decodes enc obj one) l -> (length l < n)%nat -> bytes_ok tail ->
  one tail = Err e -> list_n one n (flat_map enc l ++ tail) = Err e.
Proof.
  intros A enc obj one l n tail e F. revert n. induction F as [|x l (N & O & D) F IH]; intros n L R E.
  - destruct n as [|n]; [cbn in L; lia|]. cbn [flat_map app list_n]. rewrite E. reflexivity.
  - destruct n as [|n]; [cbn in L; lia|]. cbn [flat_map list_n]. rewrite <- app_assoc.
    rewrite D by (apply bytes_ok_app; split; [eapply enc_ok; exact F|exact R]). cbn [bind]. rewrite skipn_exactly by reflexivity.
    rewrite IH by (auto; cbn in L; lia). reflexivity.
Qed.

(** * The status page *)
Lemma nothing_element : forall type, elem_obj (element_class type) 4 [] = Err EInstruct.
Proof.
  intro type. destruct (kind_of type element_kinds) as [k|] eqn:K.
  - destruct (kind_cases type k K) as (fs & -> & _ & _). reflexivity.
  - rewrite (element_class_other type K). reflexivity.
Qed.
Lemma status_arranged : forall types els tail, Forall (fun t => 0 <= t_elements t < 128) types -> Forall (text_of_length 4) els -> bytes_ok tail ->
  arranged types els <> None \/ tail = [] ->
  per_header status_descriptor (map header_object types) (flat_map (fun e => e) els ++ tail) =
  match arranged types els with Some gs => Ok (map status_group_object gs) | None => Err EInstruct end.
Proof.
  intros types els tail P F R H. apply (per_header_arranged (fun e => e) (text_of_length 4)); auto.
  - intros b [O _]. exact O.
  - intros t o l rest C S K RO. pose proof (status_descriptor_spec (Group t o l) rest K) as X. unfold group_data in X. cbn [g_overall g_elements g_type] in X.
    rewrite <- app_assoc in X. apply X; [|exact RO]. apply (complete_signed (Group t o l)); assumption.
  - destruct H as [H| ->]; [left; exact H|right]. intros t l B K L. rewrite app_nil_r. unfold status_descriptor.
    change (obj_int "element_type" (header_object t)) with (Ok (t_type t)).
    change (obj_int "possible_elements_num" (header_object t)) with (Ok (signed 1 (t_elements t))). cbn [bind].
    rewrite signed1_small by lia.
    destruct l as [|o l]; [reflexivity|]. inversion K as [|? ? [O N] K1]; subst. cbn [flat_map]. rewrite slice0 by exact N.
    pose proof (general_element o [] (conj O N) ltac:(constructor)) as GE. rewrite app_nil_r in GE.
    unfold elem_obj in GE. destruct (unpack general_status o) as [v|] eqn:U; [|discriminate]. cbn [bind].
    rewrite skipn_exactly by exact N. rewrite <- (app_nil_r (flat_map _ l)).
    rewrite (list_n_short (fun e => e) (element_object (t_type t)) _ l _ [] EInstruct); [reflexivity| | |constructor|apply nothing_element].
    + eapply Forall_impl; [|exact K1]. apply text_decodes.
    + unfold zlen in L. cbn [length] in L. lia.
Qed.

(** * The texts *)
Lemma short_descriptor : forall b, bytes_ok b -> (length b < 4)%nat -> descriptor_element b = Err EInstruct.
Proof.
  intros b O L. unfold descriptor_element, unpack, descriptor. cbn [c_fields c_name]. rewrite uf_sb by (auto; lia).
  replace (4 <=? length b)%nat with false by (symmetry; apply Nat.leb_gt; lia). reflexivity.
Qed.
Lemma texts_arranged : forall types els tail, Forall (fun t => 0 <= t_elements t < 128) types -> Forall text_ok els -> bytes_ok tail -> (length tail < 4)%nat ->
  per_header element_descriptor (map header_object types) (flat_map element_text els ++ tail) =
  match arranged types els with Some gs => Ok (map descriptor_group_object gs) | None => Err EInstruct end.
Proof.
  intros types els tail P F R H. apply (per_header_arranged element_text text_ok); auto.
  - intros b [O _]. apply element_text_ok. exact O.
  - intros t o l rest C S K RO. pose proof (element_descriptor_spec (Group t o l) rest K) as X. unfold group_data in X. cbn [g_overall g_elements g_type] in X.
    rewrite <- app_assoc in X. apply X; [|exact RO]. apply (complete_signed (Group t o l)); assumption.
  - right. intros t l B K L. unfold element_descriptor.
    change (obj_int "possible_elements_num" (header_object t)) with (Ok (signed 1 (t_elements t))). cbn [bind].
    rewrite signed1_small by lia.
    destruct l as [|o l]; [cbn [flat_map app]; rewrite short_descriptor by assumption; reflexivity|]. inversion K as [|? ? K0 K1]; subst. cbn [flat_map]. rewrite <- app_assoc.
    destruct (element_text_decodes _ K0) as (_ & _ & D).
    assert (FL : Forall (decodes element_text element_text_object descriptor_element) l) by (eapply Forall_impl; [|exact K1]; apply element_text_decodes).
    rewrite D by (apply bytes_ok_app; split; [eapply enc_ok; exact FL|exact R]). cbn [bind]. rewrite skipn_exactly by reflexivity.
    rewrite (list_n_short element_text element_text_object _ l _ tail EInstruct); [reflexivity|exact FL| |exact R|apply short_descriptor; assumption].
    unfold zlen in L. cbn [length] in L. lia.
Qed.

(** * What is seen of the pages *)
Lemma elements_body : forall (enc : bytes -> bytes) gs, flat_map (group_data enc) gs = flat_map enc (elements_of gs).
Proof.
  intros enc gs. unfold elements_of. induction gs as [|g gs IH]; [reflexivity|]. cbn [flat_map]. rewrite IH.
  unfold group_data. rewrite flat_map_app. cbn [flat_map]. reflexivity.
Qed.
Lemma elements_fine : forall fine st gs, as_configured fine st gs -> Forall fine (elements_of gs).
Proof.
  intros fine st gs [_ F]. unfold elements_of. induction F as [|g gs [_ K] F IH]; [constructor|]. cbn [flat_map]. apply Forall_app. split; assumption.
Qed.
Lemma elements_needed : forall fine st gs, as_configured fine st gs -> length (elements_of gs) = needed (types_of st).
Proof.
  intros fine st gs [M F]. rewrite <- M. clear M. unfold elements_of. induction F as [|g gs [C _] F IH]; [reflexivity|]. cbn [flat_map map]. unfold needed. cbn [map list_sum fold_right].
  fold (list_sum (map (fun t => Datatypes.S (Z.to_nat (t_elements t))) (map g_type gs))). fold (needed (map g_type gs)). rewrite app_length, IH. unfold group_complete, zlen in C. cbn [length]. lia.
Qed.
Lemma four_each : forall els, Forall (text_of_length 4) els -> length (flat_map (fun e => e) els) = (4 * length els)%nat.
Proof. intros els F. induction F as [|e els [_ N] F IH]; [reflexivity|]. cbn [flat_map length]. rewrite app_length, IH, N. lia. Qed.
Lemma zeros_split : forall (enc : bytes -> bytes) zero m, enc zero = [0; 0; 0; 0] -> zeros m = flat_map enc (repeat zero (m / 4)) ++ zeros (m mod 4).
Proof.
  intros enc zero m E. rewrite (Nat.div_mod m 4) at 1 by lia. unfold zeros. rewrite repeat_app. f_equal.
  induction (m / 4)%nat as [|k IH]; [reflexivity|]. replace (4 * Datatypes.S k)%nat with (4 + 4 * k)%nat by lia. rewrite repeat_app, IH. cbn [repeat flat_map]. rewrite E. reflexivity.
Qed.
Lemma types_fine : forall st, readable_state st -> Forall (fun t => 0 <= t_elements t < 128) (types_of st).
Proof.
  intros st R. destruct (r_enclosures _ R) as (E & _ & _). destruct (r_counts _ R) as [_ C]. apply types_ok in E.
  unfold types_of in *. apply Forall_forall. intros t I. rewrite Forall_forall in E, C. specialize (E t I). specialize (C t I). unfold type_ok, is_byte in E. lia.
Qed.

Lemma page_length : forall code b1 gen body, zlen (ses_page code b1 gen body) = 8 + zlen body.
Proof. intros. unfold ses_page, zlen. rewrite !app_length, !be_bytes_length. cbn [length]. lia. Qed.
Lemma page_seen : forall padded code parse cdb page, 0 < zlen page <= 65535 ->
  seen padded (ReceiveDiagnostic code 65535 parse) (ReadCmd cdb 65535) (good (firstn (Z.to_nat 65535) page)) =
  parse (page ++ zeros (if padded then Z.to_nat (65535 - zlen page) else 0)).
Proof.
  intros padded code parse cdb page [P L]. rewrite seen_nice. destruct (got_data padded cdb 65535 page) as (m & -> & M); [lia|exact P|].
  replace (if padded then Z.to_nat (65535 - zlen page) else 0%nat) with m by (destruct padded; subst m; unfold zlen; lia).
  rewrite firstn_all2; [reflexivity|]. destruct padded; subst m; unfold zeros, zlen in *; rewrite app_length, repeat_length; lia.
Qed.

Lemma conf_seen : forall negative padded cdb st, readable_state st ->
  seen padded (conf_command negative) (ReadCmd cdb 65535) (good (firstn (Z.to_nat 65535) (configuration_page (s_generation st) (s_enclosures st)))) = Ok (conf_object st).
Proof.
  intros negative padded cdb st R. destruct (r_enclosures _ R) as (E & N & L). destruct (r_counts _ R) as [C1 C2]. destruct (r_numbers _ R) as [G _].
  destruct (r_sizes _ R) as (S1 & _ & _). unfold conf_command. rewrite page_seen by (unfold configuration_page; rewrite page_length; unfold zlen in *; lia).
  apply configuration_spec; auto; try lia; [|apply zeros_ok]. eapply Forall_impl; [|exact C2]. intros t [X _]. exact X.
Qed.

Lemma headers_of : forall st, header_list (conf_object st) = Ok (map header_object (types_of st)).
Proof. reflexivity. Qed.
Lemma status_seen_spec : forall padded cdb old st, readable_state old -> readable_state st ->
  seen padded (status_command (conf_object old)) (ReadCmd cdb 65535) (good (firstn (Z.to_nat 65535) (status_page (s_flags st) (s_generation st) (s_status st)))) =
  status_seen padded old st.
Proof.
  intros padded cdb old st RO R. destruct (r_numbers _ R) as [G B]. destruct (r_sizes _ R) as (_ & S1 & _).
  pose proof (elements_fine _ _ _ (r_status _ R)) as F. pose proof (elements_fine _ _ _ (r_status _ RO)) as FO.
  pose proof (elements_needed _ _ _ (r_status _ RO)) as NO. destruct (r_sizes _ RO) as (_ & S2 & _).
  unfold status_command. unfold status_page. rewrite page_seen by (rewrite page_length; unfold zlen in *; lia).
  rewrite page_length. set (m := if padded then _ else _).
  assert (O : bytes_ok (status_body (s_status st))).
  { unfold status_body. rewrite elements_body. apply (enc_all (fun e => e) (text_of_length 4)); [intros b [X _]; exact X|exact F]. }
  unfold enclosure_status. rewrite status_head by (auto; try lia; apply zeros_ok). cbn [bind]. rewrite headers_of. cbn [bind].
  destruct (ses_page_values 2 (s_flags st) (s_generation st) (status_body (s_status st)) (zeros m) ltac:(lia) G) as (_ & _ & _ & _ & _ & SK & _). rewrite SK. clear SK.
  unfold status_seen, read_as. set (zs := more_elements padded _ _).
  assert (X : status_body (s_status st) ++ zeros m = flat_map (fun e => e) (elements_of (s_status st) ++ zs) ++ zeros (m mod 4)).
  { rewrite flat_map_app, <- app_assoc. unfold status_body. rewrite elements_body. f_equal. rewrite (zeros_split (fun e => e) [0; 0; 0; 0] m eq_refl). f_equal. f_equal.
    subst zs m. unfold more_elements. destruct padded; [|reflexivity]. f_equal. rewrite <- (Nat2Z.id (_ / 4)). f_equal. rewrite Nat2Z.inj_div, Z2Nat.id by lia.
    f_equal. lia. }
  rewrite X. clear X. rewrite status_arranged.
  - destruct (arranged (types_of old) (elements_of (s_status st) ++ zs)); reflexivity.
  - apply types_fine. exact RO.
  - apply Forall_app. split; [exact F|]. subst zs. unfold more_elements. destruct padded; [|constructor]. apply Forall_forall. intros e I. apply repeat_spec in I. subst e.
    split; [repeat constructor; unfold byte_ok; lia|reflexivity].
  - apply zeros_ok.
  - destruct padded; [left|right; reflexivity]. destruct (arranged_some (types_of old) (elements_of (s_status st) ++ zs)) as [gs ->]; [|discriminate].
    rewrite <- NO, app_length. subst zs. unfold more_elements. rewrite repeat_length.
    unfold status_body in *. rewrite elements_body in *. unfold zlen in *. rewrite four_each in * by assumption.
    apply Nat2Z.inj_le. rewrite Nat2Z.inj_add, Z2Nat.id by (apply Z.div_pos; lia). Z.to_euclidean_division_equations. lia.
Qed.
Lemma texts_seen_spec : forall padded cdb old st, readable_state old -> readable_state st ->
  seen padded (texts_command (conf_object old)) (ReadCmd cdb 65535) (good (firstn (Z.to_nat 65535) (descriptor_page (s_generation st) (s_texts st)))) =
  texts_seen padded old st.
Proof.
  intros padded cdb old st RO R. destruct (r_numbers _ R) as [G B]. destruct (r_sizes _ R) as (_ & _ & S1).
  pose proof (elements_fine _ _ _ (r_texts _ R)) as F.
  unfold texts_command. unfold descriptor_page. rewrite page_seen by (rewrite page_length; unfold zlen in *; lia).
  rewrite page_length. set (m := if padded then _ else _).
  assert (O : bytes_ok (descriptor_body (s_texts st))).
  { unfold descriptor_body. rewrite elements_body. apply (enc_all element_text text_ok); [intros b [X _]; apply element_text_ok; exact X|exact F]. }
  unfold element_descriptors.
  destruct (ses_page_values 7 0 (s_generation st) (descriptor_body (s_texts st)) (zeros m) ltac:(lia) G) as (V0 & _ & _ & V2 & V4 & SK & N).
  rewrite <- (app_nil_r (map reader_of descriptor_page_fields)).
  rewrite (unpack_layout _ descriptor_head_layout) by (try reflexivity; apply ses_page_ok; auto; try apply zeros_ok; unfold is_byte; lia).
  change (layout_end descriptor_head_layout) with 8%nat. too_short. cbn [unpack_fields bind].
  rewrite headers_of. cbn [bind]. rewrite SK. clear SK.
  unfold texts_seen, read_as. set (zs := more_elements padded _ _).
  assert (X : descriptor_body (s_texts st) ++ zeros m = flat_map element_text (elements_of (s_texts st) ++ zs) ++ zeros (m mod 4)).
  { rewrite flat_map_app, <- app_assoc. unfold descriptor_body. rewrite elements_body. f_equal. rewrite (zeros_split element_text [] m eq_refl). f_equal. f_equal.
    subst zs m. unfold more_elements. destruct padded; [|reflexivity]. f_equal. rewrite <- (Nat2Z.id (_ / 4)). f_equal. rewrite Nat2Z.inj_div, Z2Nat.id by lia.
    f_equal. lia. }
  rewrite X. clear X. rewrite texts_arranged.
  - destruct (arranged (types_of old) (elements_of (s_texts st) ++ zs)); [|reflexivity].
    cbn [bind app descriptor_head_layout layout_values map fst snd loc_value]. rewrite !sb_signed by lia. rewrite V0, V2, V4. reflexivity.
  - apply types_fine. exact RO.
  - apply Forall_app. split; [exact F|]. subst zs. unfold more_elements. destruct padded; [|constructor]. apply Forall_forall. intros e I. apply repeat_spec in I. subst e.
    split; [constructor|reflexivity].
  - apply zeros_ok.
  - unfold zeros. rewrite repeat_length. apply Nat.mod_upper_bound. lia.
Qed.

(** * Unchanged configurations *)
Lemma read_unchanged : forall object fine st gs more, as_configured fine st gs -> Forall (fun t => 0 <= t_elements t < 128) (types_of st) ->
  read_as object (types_of st) (elements_of gs ++ more) = Ok (object gs).
Proof.
  intros object fine st gs more [M F] P. unfold read_as.
  replace (arranged (types_of st) (elements_of gs ++ more)) with (Some gs); [reflexivity|]. symmetry. apply arranged_spec.
  - eapply Forall_impl; [|exact P]. intros t X. cbn in X. lia.
  - split; [exact M|]. split; [|eauto]. eapply Forall_impl; [|exact F]. intros g [C _]. exact C.
Qed.
Lemma status_unchanged : forall padded old st, readable_state st -> types_of st = types_of old -> status_seen padded old st = Ok (status_object st).
Proof. intros padded old st R T. unfold status_seen. rewrite <- T. eapply read_unchanged; [exact (r_status _ R)|apply types_fine; exact R]. Qed.
Lemma texts_unchanged : forall padded old st, readable_state st -> types_of st = types_of old -> texts_seen padded old st = Ok (texts_object st).
Proof. intros padded old st R T. unfold texts_seen. rewrite <- T. eapply read_unchanged; [exact (r_texts _ R)|apply types_fine; exact R]. Qed.

Lemma signed_same : forall a b, 0 <= a < 2 ^ 32 -> 0 <= b < 2 ^ 32 -> (signed 4 a =? signed 4 b) = (a =? b).
Proof.
  intros a b A B. unfold signed. change (2 ^ (8 * Z.of_nat 4 - 1)) with (2 ^ 31). change (2 ^ (8 * Z.of_nat 4)) with (2 ^ 32).
  destruct (Z.eqb_spec a b) as [->|N]; [apply Z.eqb_refl|]. apply Z.eqb_neq.
  destruct (Z.leb_spec (2 ^ 31) a), (Z.leb_spec (2 ^ 31) b); lia.
Qed.
Lemma status_generation : forall padded old st v, readable_state old -> readable_state st -> status_seen padded old st = Ok v ->
  same_generation (conf_object old) v = (s_generation old =? s_generation st).
Proof.
  intros padded old st v RO R E. unfold status_seen, read_as in E. destruct (arranged _ _); [|discriminate]. apply ok_same in E. subst v.
  destruct (r_numbers _ RO) as [GO _]. destruct (r_numbers _ R) as [G _].
  unfold same_generation. change (attribute_of "generation_code" (conf_object old)) with (Some (PInt (signed 4 (s_generation old)))).
  change (attribute_of "generation_code" (status_object_with st l)) with (Some (PInt (signed 4 (s_generation st)))). apply signed_same; assumption.
Qed.
Lemma texts_generation : forall padded old st v, readable_state old -> readable_state st -> texts_seen padded old st = Ok v ->
  same_generation (conf_object old) v = (s_generation old =? s_generation st).
Proof.
  intros padded old st v RO R E. unfold texts_seen, read_as in E. destruct (arranged _ _); [|discriminate]. apply ok_same in E. subst v.
  destruct (r_numbers _ RO) as [GO _]. destruct (r_numbers _ R) as [G _].
  unfold same_generation. change (attribute_of "generation_code" (conf_object old)) with (Some (PInt (signed 4 (s_generation old)))).
  change (attribute_of "generation_code" (texts_object_with st l)) with (Some (PInt (signed 4 (s_generation st)))). apply signed_same; assumption.
Qed.

(** * Programs *)
Lemma issued_diagnostic : forall code parse, 0 <= code < 2 ^ 8 ->
  exists cdb, issued (ReceiveDiagnostic code 65535 parse) = Ok (ReadCmd cdb 65535) /\ interpret cdb = Some (OpReceiveDiagnostic 1 code 65535).
Proof.
  intros code parse A. pose proof (receive_diagnostic_spec code 65535 parse) as S. unfold issued. cbn [constructed].
  destruct (do o <- receive_diagnostic code 65535 parse; request o) as [k|e] eqn:J.
  - destruct (asks_ok _ _ _ _ _ S eq_refl) as (_ & cdb & -> & X). eauto.
  - exfalso. apply S. lia.
Qed.

Section Programs.
Context (T : Type) (tgt : target T) (st : T -> enclosure_state) (next : T -> T) (D : reports_enclosure tgt st next) (negative : Z -> element).

Lemma page_does : forall padded code parse page x t p t' r, 0 <= code < 2 ^ 8 -> page_of code (st t) = Some page ->
  (forall cdb, seen padded (ReceiveDiagnostic code 65535 parse) (ReadCmd cdb 65535) (good (firstn (Z.to_nat 65535) page)) = x) ->
  does tgt padded (next t) (p x) t' r -> does tgt padded t (Do (ReceiveDiagnostic code 65535 parse) p) t' r.
Proof.
  intros padded code parse page x t p t' r A P S X. destruct (issued_diagnostic code parse A) as (cdb & J & C).
  eapply does_seen; [exact Logic.I|exact J|cbn [moderate]; lia|exact (re_answer _ _ _ D t cdb [] code 65535 page C P)|apply ordinary_good|apply S|exact X].
Qed.
Lemma conf_does : forall padded t p t' r, does tgt padded (next t) (p (Ok (conf_object (st t)))) t' r -> does tgt padded t (Do (conf_command negative) p) t' r.
Proof. intros padded t p t' r. eapply page_does; [lia|reflexivity|]. intro cdb. apply conf_seen. apply (re_readable _ _ _ D). Qed.
Lemma status_does : forall padded old t p t' r, readable_state old -> does tgt padded (next t) (p (status_seen padded old (st t))) t' r ->
  does tgt padded t (Do (status_command (conf_object old)) p) t' r.
Proof. intros padded old t p t' r RO. eapply page_does; [lia|reflexivity|]. intro cdb. apply status_seen_spec; [exact RO|apply (re_readable _ _ _ D)]. Qed.
Lemma texts_does : forall padded old t p t' r, readable_state old -> does tgt padded (next t) (p (texts_seen padded old (st t))) t' r ->
  does tgt padded t (Do (texts_command (conf_object old)) p) t' r.
Proof. intros padded old t p t' r RO. eapply page_does; [lia|reflexivity|]. intro cdb. apply texts_seen_spec; [exact RO|apply (re_readable _ _ _ D)]. Qed.

Lemma read_status_does : forall padded t, does tgt padded t (read_status negative) (next (next t)) (status_seen padded (st t) (st (next t))).
Proof. intros padded t. apply conf_does. apply status_does; [apply (re_readable _ _ _ D)|]. apply does_finish. Qed.
Lemma read_texts_does : forall padded t, does tgt padded t (read_texts negative) (next (next t)) (texts_seen padded (st t) (st (next t))).
Proof. intros padded t. apply conf_does. apply texts_does; [apply (re_readable _ _ _ D)|]. apply does_finish. Qed.

Lemma attempt_fails : forall padded e m t t' r, ~ steady st next t -> does tgt padded (later next 3 t) (survey negative e m) t' r ->
  does tgt padded t (survey negative e (Datatypes.S m)) t' r.
Proof.
  intros padded e m t t' r N X. cbn [survey]. apply conf_does. apply status_does; [apply (re_readable _ _ _ D)|]. apply texts_does; [apply (re_readable _ _ _ D)|].
  destruct (status_seen padded (st t) (st (next t))) as [v|] eqn:E; [|exact X].
  destruct (texts_seen padded (st t) (st (next (next t)))) as [w|] eqn:F; [|exact X].
  rewrite (status_generation _ _ _ _ (re_readable _ _ _ D t) (re_readable _ _ _ D _) E), (texts_generation _ _ _ _ (re_readable _ _ _ D t) (re_readable _ _ _ D _) F).
  destruct (Z.eqb_spec (s_generation (st t)) (s_generation (st (next t)))) as [A|A]; [|exact X].
  destruct (Z.eqb_spec (s_generation (st t)) (s_generation (st (next (next t))))) as [B|B]; [|exact X]. exfalso. apply N. split; congruence.
Qed.
Lemma attempt_works : forall padded e m t, counts_changes st next -> steady st next t ->
  does tgt padded t (survey negative e (Datatypes.S m)) (later next 3 t)
    (Ok (PList [conf_object (st t); status_object (st (next t)); texts_object (st (next (next t)))])).
Proof.
  intros padded e m t C [A B].
  assert (T1 : types_of (st (next t)) = types_of (st t)) by (unfold types_of; rewrite (C t A); reflexivity).
  assert (T2 : types_of (st (next (next t))) = types_of (st t)) by (unfold types_of; rewrite (C (next t)) by congruence; exact T1).
  cbn [survey]. apply conf_does. apply status_does; [apply (re_readable _ _ _ D)|]. apply texts_does; [apply (re_readable _ _ _ D)|].
  pose proof (status_unchanged padded _ _ (re_readable _ _ _ D _) T1) as E. pose proof (texts_unchanged padded _ _ (re_readable _ _ _ D _) T2) as F. rewrite E, F.
  rewrite (status_generation _ _ _ _ (re_readable _ _ _ D t) (re_readable _ _ _ D _) E), (texts_generation _ _ _ _ (re_readable _ _ _ D t) (re_readable _ _ _ D _) F).
  rewrite A, B, Z.eqb_refl. constructor.
Qed.
Lemma later_add : forall a b t, later next (a + b) t = later next b (later next a t).
Proof. induction a as [|a IH]; intros b t; [reflexivity|]. apply IH. Qed.
Lemma survey_works : forall padded e i m t, counts_changes st next -> (forall j, (j < i)%nat -> ~ steady st next (later next (3 * j) t)) ->
  steady st next (later next (3 * i) t) ->
  does tgt padded t (survey negative e (i + Datatypes.S m)) (later next (3 * i + 3) t)
    (Ok (PList [conf_object (st (later next (3 * i) t)); status_object (st (later next (3 * i + 1) t)); texts_object (st (later next (3 * i + 2) t))])).
Proof.
  intros padded e i m t C. revert t. induction i as [|i IH]; intros t N S.
  - apply attempt_works; assumption.
  - cbn [Nat.add]. apply attempt_fails; [exact (N 0%nat ltac:(lia))|].
    replace (3 * Datatypes.S i + 3)%nat with (3 + (3 * i + 3))%nat by lia. replace (3 * Datatypes.S i + 1)%nat with (3 + (3 * i + 1))%nat by lia.
    replace (3 * Datatypes.S i + 2)%nat with (3 + (3 * i + 2))%nat by lia. replace (3 * Datatypes.S i)%nat with (3 + 3 * i)%nat in * by lia. rewrite !(later_add 3).
    rewrite (later_add 3) in S. apply IH; [|exact S]. intros j J. rewrite <- (later_add 3). replace (3 + 3 * j)%nat with (3 * Datatypes.S j)%nat by lia. apply N. lia.
Qed.
Lemma survey_fails : forall padded e n t, (forall j, (j < n)%nat -> ~ steady st next (later next (3 * j) t)) ->
  does tgt padded t (survey negative e n) (later next (3 * n) t) (Err e).
Proof.
  intros padded e n. induction n as [|n IH]; intros t N; [constructor|]. apply attempt_fails; [exact (N 0%nat ltac:(lia))|].
  replace (3 * Datatypes.S n)%nat with (3 + 3 * n)%nat by lia. rewrite later_add. apply IH.
  intros j J. rewrite <- (later_add 3). replace (3 + 3 * j)%nat with (3 * Datatypes.S j)%nat by lia. apply N. lia.
Qed.

Context (sys : system T) (four : one_of_four sys).
Lemma status_run : forall t s, idle sys s t ->
  exists s', sync_wait_ends (coroutine (os_of sys tgt) (read_status negative)) s s' (shown (status_seen (pads sys) (st t) (st (next t)))) /\ idle sys s' (next (next t)).
Proof. intros t s Hi. exact (adaptive _ _ _ _ _ _ _ _ four (read_status_does (pads sys) t) Hi). Qed.
Lemma texts_run : forall t s, idle sys s t ->
  exists s', sync_wait_ends (coroutine (os_of sys tgt) (read_texts negative)) s s' (shown (texts_seen (pads sys) (st t) (st (next t)))) /\ idle sys s' (next (next t)).
Proof. intros t s Hi. exact (adaptive _ _ _ _ _ _ _ _ four (read_texts_does (pads sys) t) Hi). Qed.
Lemma status_unchanged_run : forall t s, idle sys s t -> s_enclosures (st (next t)) = s_enclosures (st t) ->
  exists s', sync_wait_ends (coroutine (os_of sys tgt) (read_status negative)) s s' (shown (Ok (status_object (st (next t))))) /\ idle sys s' (next (next t)).
Proof.
  intros t s Hi E. destruct (status_run t s Hi) as (s' & W & J). exists s'. split; [|exact J].
  rewrite status_unchanged in W; [exact W|apply (re_readable _ _ _ D)|]. unfold types_of. rewrite E. reflexivity.
Qed.
Lemma texts_unchanged_run : forall t s, idle sys s t -> s_enclosures (st (next t)) = s_enclosures (st t) ->
  exists s', sync_wait_ends (coroutine (os_of sys tgt) (read_texts negative)) s s' (shown (Ok (texts_object (st (next t))))) /\ idle sys s' (next (next t)).
Proof.
  intros t s Hi E. destruct (texts_run t s Hi) as (s' & W & J). exists s'. split; [|exact J].
  rewrite texts_unchanged in W; [exact W|apply (re_readable _ _ _ D)|]. unfold types_of. rewrite E. reflexivity.
Qed.
Lemma survey_run : forall e n i t s, idle sys s t -> (i < n)%nat -> counts_changes st next -> (forall j, (j < i)%nat -> ~ steady st next (later next (3 * j) t)) ->
  steady st next (later next (3 * i) t) ->
  exists s', sync_wait_ends (coroutine (os_of sys tgt) (survey negative e n)) s s'
      (shown (Ok (PList [conf_object (st (later next (3 * i) t)); status_object (st (later next (3 * i + 1) t)); texts_object (st (later next (3 * i + 2) t))]))) /\
    idle sys s' (later next (3 * i + 3) t).
Proof.
  intros e n i t s Hi I C N S. replace n with (i + Datatypes.S (n - i - 1))%nat by lia.
  exact (adaptive _ _ _ _ _ _ _ _ four (survey_works (pads sys) e i (n - i - 1) t C N S) Hi).
Qed.
Lemma survey_fails_run : forall e n t s, idle sys s t -> (forall j, (j < n)%nat -> ~ steady st next (later next (3 * j) t)) ->
  exists s', sync_wait_ends (coroutine (os_of sys tgt) (survey negative e n)) s s' (Threw e) /\ idle sys s' (later next (3 * n) t).
Proof. intros e n t s Hi N. exact (adaptive _ _ _ _ _ _ _ _ four (survey_fails (pads sys) e n t N) Hi). Qed.
End Programs.
