(** Parsing of arbitrary data ends with an object or with an error of the library. *)
From Coq Require Import String ZArith List Bool Lia.
From Verif Require Import Base OsCommon Instruct Command CdbBlock CdbPrimary Pages Ses Sense SpecRobust.
Import ListNotations.
Local Open Scope string_scope.
Local Open Scope Z_scope.

Definition tame {A} (r : result A) : Prop := forall e, r = Err e -> e = EInstruct.
Lemma tame_ok : forall A (a : A), tame (Ok a).
Proof. discriminate. Qed.
Lemma tame_err : forall A, tame (@Err A EInstruct).
Proof. intros A e [= <-]; reflexivity. Qed.
Lemma tame_bind : forall A B (r : result A) (k : A -> result B),
  tame r -> (forall a, r = Ok a -> tame (k a)) -> tame (bind r k).
Proof. intros A B [a|e] k H K; cbn; [apply K; reflexivity|]. intros e' E. apply H. injection E as <-. reflexivity. Qed.
Lemma tame_if : forall A (b : bool) (x y : result A), tame x -> tame y -> tame (if b then x else y).
Proof. intros A [] x y; auto. Qed.
#[global] Hint Resolve tame_ok tame_err tame_if : tame.

Definition tame_reader (r : reader) : Prop := forall got buf, tame (r got buf).
Definition tame_element (one : element) : Prop := forall buf, tame (one buf).
Definition progress (one : element) : Prop := forall buf v k, one buf = Ok (v, k) -> (1 <= k)%nat.
Definition tame_fields (l : list (string * reader)) : Prop := Forall (fun p => tame_reader (snd p)) l.

Lemma read_int_tame : forall s ps buf, tame (read_int s ps buf).
Proof. intros. unfold read_int. auto with tame. Qed.
Lemma r_int_tame : forall s ps, tame_reader (r_int s ps).
Proof. intros s ps got buf. apply tame_bind; [apply read_int_tame|auto with tame]. Qed.
Lemma r_uint_tame : forall ps, tame_reader (r_uint ps). Proof. intro; apply r_int_tame. Qed.
Lemma r_sint_tame : forall ps, tame_reader (r_sint ps). Proof. intro; apply r_int_tame. Qed.
Lemma r_bytes_tame : forall a b, tame_reader (r_bytes a b). Proof. intros a b got buf. apply tame_ok. Qed.
Lemma r_str_tame : forall a b, tame_reader (r_str a b). Proof. intros a b got buf. apply tame_ok. Qed.
Lemma r_str_at_tame : forall ks, tame_reader (r_str_at ks). Proof. intros ks got buf. apply tame_ok. Qed.
Lemma r_if_tame : forall c r, tame_reader r -> tame_reader (r_if c r).
Proof. intros c r H got buf. unfold r_if. apply tame_if; [apply H|apply tame_ok]. Qed.
Lemma fields_tame : forall l, tame_fields l -> forall got buf, tame (unpack_fields l got buf).
Proof.
  induction l as [|[n r] l IH]; intros H got buf; cbn; [apply tame_ok|].
  inversion H as [|x y Hr Hl]; subst. apply tame_bind; [apply Hr|]. intros a _. apply IH; assumption.
Qed.
Lemma unpack_tame : forall c, tame_fields (c_fields c) -> forall buf, tame (unpack c buf).
Proof. intros c H buf. apply tame_bind; [apply fields_tame; exact H|]. intros; apply tame_ok. Qed.
Lemma r_obj_tame : forall c a b, tame_fields (c_fields c) -> tame_reader (r_obj c a b).
Proof. intros c a b H got buf. apply unpack_tame; exact H. Qed.
Lemma list_n_tame : forall one, tame_element one -> forall n buf, tame (list_n one n buf).
Proof.
  intros one H. induction n as [|n IH]; intro buf; cbn; [apply tame_ok|].
  apply tame_bind; [apply H|]. intros [v k] _. apply tame_bind; [apply IH|]. intros [vs j] _. apply tame_ok.
Qed.
Lemma list_all_tame : forall one, tame_element one -> progress one ->
  forall fuel buf, (length buf <= fuel)%nat -> tame (list_all one fuel buf).
Proof.
  intros one H P. induction fuel as [|fuel IH]; intros [|b buf] L; cbn; try apply tame_ok; cbn in L; [lia|].
  apply tame_bind; [apply H|]. intros [v k] E. apply P in E. destruct k as [|k]; [lia|].
  apply tame_bind; [|intros; apply tame_ok]. apply IH. change (skipn (Datatypes.S k) (b :: buf)) with (skipn k buf).
  rewrite skipn_length. lia.
Qed.
Lemma read_list_tame : forall one, tame_element one -> progress one -> forall buf, tame (read_list one buf).
Proof. intros one H P buf. apply list_all_tame; auto. Qed.
Lemma r_list_n_tame : forall one a b n, tame_element one -> tame_reader (r_list_n one a b n).
Proof. intros one a b n H got buf. apply tame_bind; [apply list_n_tame; exact H|]. intros [l k] _. apply tame_ok. Qed.
Lemma r_list_tame : forall one a b, tame_element one -> progress one -> tame_reader (r_list one a b).
Proof. intros one a b H P got buf. apply tame_bind; [apply read_list_tame; auto|]. intros; apply tame_ok. Qed.
Lemma elem_obj_tame : forall c n, tame_fields (c_fields c) -> tame_element (elem_obj c n).
Proof. intros c n H buf. apply tame_bind; [apply unpack_tame; exact H|]. intros; apply tame_ok. Qed.
Lemma elem_uint_tame : forall n, tame_element (elem_uint n).
Proof. intros n buf. apply tame_bind; [apply read_int_tame|]. intros; apply tame_ok. Qed.
Lemma elem_int8_tame : tame_element elem_int8.
Proof. intros buf. apply tame_bind; [apply read_int_tame|]. intros; apply tame_ok. Qed.
Lemma elem_uint_progress : forall n, (1 <= n)%nat -> progress (elem_uint n).
Proof. intros n H buf v k. unfold elem_uint. destruct (read_int _ _ _); cbn; [|discriminate]. intros [= _ <-]; exact H. Qed.
Lemma elem_int8_progress : progress elem_int8.
Proof. intros buf v k. unfold elem_int8. destruct (read_int _ _ _); cbn; [|discriminate]. intros [= _ <-]; lia. Qed.
Lemma numbers_tame : forall fs, tame_fields (map reader_of fs).
Proof. induction fs as [|f fs IH]; constructor; [|exact IH]. apply r_int_tame. Qed.
Lemma tame_app : forall a b, tame_fields a -> tame_fields b -> tame_fields (a ++ b)%list.
Proof. intros a b H K. apply Forall_app; split; assumption. Qed.

#[global] Hint Resolve r_int_tame r_uint_tame r_sint_tame r_bytes_tame r_str_tame r_str_at_tame r_if_tame r_obj_tame
  r_list_n_tame r_list_tame elem_obj_tame elem_uint_tame elem_uint_progress elem_int8_tame elem_int8_progress
  numbers_tame tame_app : tame.
Ltac fields := repeat (apply Forall_cons; [cbn [snd]|]); [..|try apply Forall_nil].

Lemma unpack_object : forall c buf v, unpack c buf = Ok v -> exists l, v = PObj (c_name c) l.
Proof. intros c buf v. unfold unpack. destruct (unpack_fields _ _ _) as [l|]; cbn; [|discriminate]. intros [= <-]. exists l; reflexivity. Qed.
Lemma class_answers : forall c, tame_fields (c_fields c) -> forall buf, object_or_refusal (c_name c) (unpack c buf).
Proof.
  intros c H buf. destruct (unpack c buf) as [v|e] eqn:E.
  - left. destruct (unpack_object _ _ _ E) as [l ->]. exists l; reflexivity.
  - right. f_equal. apply (unpack_tame c H buf). exact E.
Qed.

(** * Target port groups, copy parameters, persistent reservations *)
Lemma target_port_tame : tame_fields (c_fields target_port_descriptor).
Proof. repeat constructor; apply r_int_tame. Qed.
#[global] Hint Resolve target_port_tame : tame.
Lemma target_port_group_tame : tame_fields (c_fields target_port_group_descriptor).
Proof. unfold target_port_group_descriptor; cbn [c_fields]. repeat (apply Forall_cons; [cbn [snd]; auto with tame|]). apply Forall_nil. Qed.
Lemma rtpg_element_tame : tame_element rtpg_element.
Proof.
  intro buf. apply tame_bind; [apply unpack_tame, target_port_group_tame|]. intros v E.
  destruct (unpack_object _ _ _ E) as [l ->]. apply tame_ok.
Qed.
Lemma rtpg_element_progress : progress rtpg_element.
Proof.
  intros buf v k. unfold rtpg_element. destruct (unpack _ _) as [u|]; cbn; [|discriminate].
  destruct u; try discriminate. intros [= _ <-]. lia.
Qed.
#[global] Hint Resolve rtpg_element_tame rtpg_element_progress : tame.
Ltac tame_class := cbn [c_fields]; repeat (apply Forall_cons; [cbn [snd]; auto with tame|]); apply Forall_nil.
Lemma rtpg_length_only_tame : tame_fields (c_fields rtpg_length_only).
Proof. unfold rtpg_length_only; tame_class. Qed.
Lemma rtpg_extended_tame : tame_fields (c_fields rtpg_extended).
Proof. unfold rtpg_extended; tame_class. Qed.
Lemma receive_copy_tame : tame_fields (c_fields receive_copy_response).
Proof. unfold receive_copy_response; tame_class. Qed.
Lemma read_keys_tame : tame_fields (c_fields read_keys_response).
Proof. unfold read_keys_response; tame_class. Qed.
Lemma read_reservation_tame : tame_fields (c_fields read_reservation_response).
Proof. unfold read_reservation_response; tame_class. Qed.
Lemma report_capabilities_tame : tame_fields (c_fields report_capabilities_response).
Proof. unfold report_capabilities_response; tame_class. Qed.
Lemma transport_id_tame : tame_fields (c_fields transport_id_class).
Proof. unfold transport_id_class; tame_class. Qed.
#[global] Hint Resolve transport_id_tame : tame.
Lemma full_status_descriptor_tame : tame_fields (c_fields full_status_descriptor).
Proof. unfold full_status_descriptor; tame_class. Qed.
Lemma full_status_element_tame : tame_element full_status_element.
Proof.
  intro buf. apply tame_bind; [apply unpack_tame, full_status_descriptor_tame|]. intros v E.
  destruct (unpack_object _ _ _ E) as [l ->]. apply tame_ok.
Qed.
Lemma full_status_element_progress : progress full_status_element.
Proof.
  intros buf v k. unfold full_status_element. destruct (unpack _ _) as [u|]; cbn; [|discriminate].
  destruct u; try discriminate. intros [= _ <-]. lia.
Qed.
#[global] Hint Resolve full_status_element_tame full_status_element_progress : tame.
Lemma full_status_tame : tame_fields (c_fields full_status_response).
Proof. unfold full_status_response; tame_class. Qed.

Lemma pr_in_answers : forall sa c, pr_in_response sa = Some c -> forall buf, object_or_refusal (pr_in_class sa) (unpack c buf).
Proof.
  intros sa c H buf.
  assert (C : (sa = 0 \/ sa = 1 \/ sa = 2 \/ sa = 3)%Z).
  { destruct sa as [|[[]|[]|]|]; cbn in H; try discriminate; auto. }
  destruct C as [-> | [-> | [-> | ->]]]; injection H as <-; apply class_answers.
  - apply read_keys_tame. - apply read_reservation_tame. - apply report_capabilities_tame. - apply full_status_tame.
Qed.

(** * INQUIRY data *)
Lemma peripheral_device_tame : tame_reader (snd r_peripheral_device).
Proof. cbn [snd r_peripheral_device]. apply r_obj_tame. apply numbers_tame. Qed.
#[global] Hint Resolve peripheral_device_tame : tame.
Lemma extended_tame : tame_fields (c_fields extended_inquiry).
Proof. unfold extended_inquiry; tame_class. Qed.
#[global] Hint Resolve extended_tame : tame.
Lemma standard_tame : tame_fields (c_fields standard_inquiry_data).
Proof.
  unfold standard_inquiry_data; cbn [c_fields]. apply Forall_cons; [auto with tame|]. apply tame_app; [auto with tame|]. tame_class.
Qed.
Lemma designator_tame : forall n fs, tame_fields (c_fields (designator_class n fs)).
Proof. intros. apply numbers_tame. Qed.
Lemma designator_text_tame : forall n l, tame_fields l -> tame_fields (c_fields (designator_text_class n l)).
Proof. intros. apply tame_app; [apply numbers_tame|assumption]. Qed.
#[global] Hint Resolve designator_tame : tame.
Definition good_kind (k : designator_kind) : Prop :=
  tame_fields (c_fields (fst k)) /\ match snd k with Upto n => (1 <= n)%nat | Announced n => (1 <= n)%nat end.
Lemma good_designator : forall n fs m, (1 <= m)%nat -> good_kind (designator_class n fs, Upto m).
Proof. intros; split; [apply designator_tame|assumption]. Qed.
Lemma determine_eui_good : forall n, tame (determine_eui n) /\ forall k, determine_eui n = Ok k -> good_kind k.
Proof.
  intro n. unfold determine_eui.
  repeat match goal with |- context [match ?x with _ => _ end] => is_var x; destruct x end;
    (split; [first [apply tame_ok | apply tame_err]|intros k E; try discriminate; injection E as <-; apply good_designator; lia]).
Qed.
Lemma determine_naa_good : forall buf, tame (determine_naa buf) /\ forall k, determine_naa buf = Ok k -> good_kind k.
Proof.
  intro buf. unfold determine_naa.
  pose proof (fields_tame (c_fields naa_descriptor) (designator_tame _ _) [] buf) as T.
  destruct (unpack_fields _ _ _) as [h|e] eqn:E; cbn [bind].
  2:{ split; [intros e' [= <-]; apply T; reflexivity|discriminate]. }
  generalize (int_attr "naa" h). intro n.
  repeat match goal with |- context [match ?x with _ => _ end] => is_var x; destruct x end;
    (split; [first [apply tame_ok | apply tame_err]|intros k K; try discriminate; injection K as <-; apply good_designator; lia]).
Qed.
Lemma determine_designator_good : forall buf,
  tame (determine_designator buf) /\ forall k, determine_designator buf = Ok k -> good_kind k.
Proof.
  intro buf. unfold determine_designator.
  pose proof (fields_tame (map reader_of designator_header) (numbers_tame _) [] buf) as T.
  destruct (unpack_fields _ _ _) as [h|e] eqn:E; cbn [bind].
  2:{ split; [intros e' [= <-]; apply T; reflexivity|discriminate]. }
  pose proof (determine_eui_good (int_attr "designator_length" h)) as GE. pose proof (determine_naa_good buf) as GN.
  assert (TX : forall n l m, tame_fields l -> (1 <= m)%nat -> good_kind (designator_text_class n l, Announced m)).
  { intros n l m H M. split; [apply designator_text_tame; exact H|exact M]. }
  generalize (int_attr "designator_type" h). intro t.
  match goal with |- tame ?X /\ _ =>
    assert (D : (t = 0 \/ t = 1 \/ t = 2 \/ t = 3 \/ t = 4 \/ t = 5 \/ t = 6 \/ t = 7 \/ t = 8) \/
                X = if (9 <=? t) && (t <=? 15) then Ok (reserved_designator, Announced 4) else Err EInstruct) end.
  { destruct t as [|p|p]; [left; auto| |right; reflexivity].
    destruct p as [[[[]|[]|]|[[]|[]|]|]|[[[]|[]|]|[[]|[]|]|]|]; try (right; reflexivity); left; auto 12. }
  destruct D as [[-> | [-> | [-> | [-> | [-> | [-> | [-> | [-> | ->]]]]]]]]| ->];
    try exact GE; try exact GN;
    try (split; [apply tame_ok|intros k K; injection K as <-; first [apply good_designator; lia | apply TX; [tame_class|lia]]]).
  destruct (_ && _); (split; [first [apply tame_ok | apply tame_err]|intros k K; try discriminate]).
  injection K as <-. apply TX; [tame_class|lia].
Qed.
Lemma designator_element_tame : tame_element designator_element.
Proof.
  intro buf. destruct (determine_designator_good buf) as [T G]. apply tame_bind; [exact T|].
  intros [c e] E. apply tame_bind; [apply unpack_tame, (proj1 (G _ E))|].
  intros v U. destruct (unpack_object _ _ _ U) as [l ->]. apply tame_ok.
Qed.
Lemma designator_element_progress : progress designator_element.
Proof.
  intros buf v k. unfold designator_element. destruct (determine_designator_good buf) as [T G].
  destruct (determine_designator buf) as [[c e]|]; cbn; [|discriminate].
  destruct (unpack c buf) as [u|]; cbn; [|discriminate]. destruct u; try discriminate.
  destruct (G _ eq_refl) as [_ M]. cbn in M. intros [= _ <-]. destruct e; lia.
Qed.
#[global] Hint Resolve designator_element_tame designator_element_progress : tame.

Lemma supported_vpd_tame : tame_fields (c_fields supported_vpd_pages).
Proof. unfold supported_vpd_pages; tame_class. Qed.
Lemma unit_serial_tame : tame_fields (c_fields unit_serial_number).
Proof. unfold unit_serial_number; tame_class. Qed.
Lemma device_identification_tame : tame_fields (c_fields device_identification).
Proof. unfold device_identification; tame_class. Qed.
Lemma block_limits_tame : tame_fields (c_fields block_limits).
Proof. apply Forall_cons; [auto with tame|apply numbers_tame]. Qed.
Lemma veritas_tame : tame_fields (c_fields veritas).
Proof. apply Forall_cons; [auto with tame|apply numbers_tame]. Qed.
Lemma unknown_vpd_tame : tame_fields (c_fields unknown_vpd_page).
Proof. unfold unknown_vpd_page; tame_class. Qed.
Lemma provisioning_tame : tame_fields (c_fields logical_block_provisioning).
Proof.
  apply Forall_cons; [auto with tame|]. apply tame_app; [apply numbers_tame|].
  apply Forall_cons; [|apply Forall_nil]. cbn [snd]. apply r_if_tame. intros got buf.
  apply tame_bind; [apply designator_element_tame|]. intros [v k] _. apply tame_ok.
Qed.
Lemma signature_tame : tame_fields (c_fields device_signature).
Proof. unfold device_signature; cbn [c_fields]. apply tame_app; [apply numbers_tame|]. apply tame_app; [tame_class|apply numbers_tame]. Qed.
Lemma identify_tame : tame_fields (c_fields ata_identify_device).
Proof. unfold ata_identify_device; tame_class. Qed.
#[global] Hint Resolve signature_tame identify_tame : tame.
Lemma ata_tame : tame_fields (c_fields ata_information).
Proof. unfold ata_information; tame_class. Qed.

Lemma vpd_cases : forall code, 
  (code = 0 \/ code = 128 \/ code = 131 \/ code = 137 \/ code = 176 \/ code = 178 \/ code = 192) \/
  (get_vpd_page_data code = unknown_vpd_page /\ vpd_class code = "UnknownVPDPageBuffer").
Proof.
  intro c. destruct (Z.eq_dec c 0); [auto|]. destruct (Z.eq_dec c 128); [auto|]. destruct (Z.eq_dec c 131); [auto|].
  destruct (Z.eq_dec c 137); [auto 6|]. destruct (Z.eq_dec c 176); [auto 7|]. destruct (Z.eq_dec c 178); [auto 9|].
  destruct (Z.eq_dec c 192); [auto 9|]. right.
  unfold get_vpd_page_data, vpd_class.
  repeat match goal with |- context [match ?x with _ => _ end] => is_var x; destruct x; try (split; reflexivity); try congruence end.
Qed.
Lemma vpd_answers : forall code buf, object_or_refusal (vpd_class code) (unpack (get_vpd_page_data code) buf).
Proof.
  intros code buf. destruct (vpd_cases code) as [[-> | [-> | [-> | [-> | [-> | [-> | ->]]]]]]|[-> ->]];
    [apply (class_answers supported_vpd_pages), supported_vpd_tame
    |apply (class_answers unit_serial_number), unit_serial_tame
    |apply (class_answers device_identification), device_identification_tame
    |apply (class_answers ata_information), ata_tame
    |apply (class_answers block_limits), block_limits_tame
    |apply (class_answers logical_block_provisioning), provisioning_tame
    |apply (class_answers veritas), veritas_tame
    |apply (class_answers unknown_vpd_page), unknown_vpd_tame].
Qed.

(** * READ CAPACITY and REPORT LUNS *)
Lemma struct_answers : forall n l buf, object_or_refusal n (unpack_struct n l buf).
Proof.
  intros n l buf. unfold unpack_struct. destruct (_ <=? _)%nat; [|right; reflexivity].
  apply (class_answers (PyClass n (map (fun f => (f_name f, r_uint (f_bits f))) (struct_fields 0 l)))). cbn [c_fields].
  induction (struct_fields 0 l); constructor; [apply r_int_tame|assumption].
Qed.

(** * Sense data *)
Lemma key_name_tame : forall k l, tame (key_name k l).
Proof. induction l as [|[n s] l IH]; cbn; [apply tame_err|]. apply tame_if; [apply tame_ok|exact IH]. Qed.
Lemma sense_fields_tame : forall fs, tame_fields (map sense_reader fs).
Proof.
  induction fs as [|f fs IH]; constructor; [|exact IH]. unfold sense_reader; cbn [snd].
  destruct (String.eqb _ _); [|apply r_int_tame]. intros got buf. apply tame_bind; [apply read_int_tame|].
  intros; apply key_name_tame.
Qed.
Lemma sense_descriptor_cases : forall buf,
  sense_descriptor buf = Err EInstruct \/ exists v k, sense_descriptor buf = Ok (v, Datatypes.S k).
Proof.
  intro buf. destruct buf as [|t [|n rest]].
  - left; reflexivity.
  - left. destruct t; reflexivity.
  - destruct (Z.eq_dec t 0) as [->|T].
    + destruct (Z.eq_dec n 10) as [->|N].
      * cbn [sense_descriptor]. destruct (_ <? _)%nat; [left; reflexivity|right; eauto].
      * left. unfold sense_descriptor.
        repeat match goal with |- context [match ?x with _ => _ end] => is_var x; destruct x; try reflexivity; try congruence end.
    + assert (E : sense_descriptor (t :: n :: rest) =
        if zlen rest <? n then Err EInstruct
        else Ok (PObj "SCSISenseDataGenericDescriptor"
                 [("descriptor_type", PInt t); ("data", PBytes (firstn (Z.to_nat n) rest))], Datatypes.S (Datatypes.S (Z.to_nat n)))).
      { unfold sense_descriptor. destruct t; [congruence|reflexivity|reflexivity]. }
      rewrite E. destruct (_ <? _); [left; reflexivity|right; eauto].
Qed.
Lemma sense_descriptor_tame : tame_element sense_descriptor.
Proof. intro buf. destruct (sense_descriptor_cases buf) as [-> | [v [k ->]]]; auto with tame. Qed.
Lemma sense_descriptor_progress : progress sense_descriptor.
Proof. intros buf v k E. destruct (sense_descriptor_cases buf) as [H|[v' [k' H]]]; rewrite H in E; [discriminate|]. injection E as _ <-. lia. Qed.
Lemma sense_answers : forall buf, sense_object buf = Ok PNone \/
  object_or_refusal "SCSISenseDataFixed" (sense_object buf) \/
  object_or_refusal "SCSISenseDataDescriptorBased" (sense_object buf).
Proof.
  intros [|b buf]; [right; left; right; reflexivity|]. unfold sense_object.
  destruct (_ || _); [|destruct (_ || _); [|left; reflexivity]]; right; [left|right].
  - unfold sense_fixed. destruct (_ <=? _)%nat; [|right; reflexivity].
    apply (class_answers (PyClass "SCSISenseDataFixed" (map sense_reader (struct_fields 0 fixed_items)))). apply sense_fields_tame.
  - unfold sense_descriptors. destruct (_ <? _)%nat; [right; reflexivity|].
    pose proof (fields_tame _ (sense_fields_tame (struct_fields 0 descriptor_items)) [] (b :: buf)) as T.
    destruct (unpack_fields _ _ _) as [l|e]; cbn [bind]; [|right; f_equal; apply T; reflexivity].
    destruct (zlen (b :: buf) <? 7 + byte_at 6 (b :: buf)); [right; reflexivity|].
    pose proof (read_list_tame _ sense_descriptor_tame sense_descriptor_progress
      (slice 7 (Z.to_nat (7 + byte_at 6 (b :: buf))) (b :: buf))) as R.
    destruct (read_list _ _) as [ds|e]; cbn [bind]; [left; eauto|right; f_equal; apply R; reflexivity].
Qed.

(** * Diagnostic pages *)
Definition has_int (n : string) (o : pyval) : Prop := exists z, obj_int n o = Ok z.
Lemma lookup_app_some : forall A n (a b : list (string * A)) v, lookup n a = Some v -> lookup n (a ++ b)%list = Some v.
Proof. induction a as [|[m w] a IH]; cbn; intros b v H; [discriminate|]. destruct (String.eqb n m); [exact H|apply IH; exact H]. Qed.
Lemma lookup_app_none : forall A n (a b : list (string * A)), lookup n a = None -> lookup n (a ++ b)%list = lookup n b.
Proof. induction a as [|[m w] a IH]; cbn; intros b H; [reflexivity|]. destruct (String.eqb n m); [discriminate|apply IH; exact H]. Qed.
Lemma kept : forall l got buf got' n v, unpack_fields l got buf = Ok got' -> lookup n got = Some v -> lookup n got' = Some v.
Proof.
  induction l as [|[m r] l IH]; intros got buf got' n v E L; cbn in E; [injection E as <-; exact L|].
  destruct (r got buf) as [u|]; cbn in E; [|discriminate]. eapply IH; [exact E|]. apply lookup_app_some; exact L.
Qed.
Lemma number_read : forall l got buf got' n s ps, unpack_fields l got buf = Ok got' ->
  lookup n got = None -> lookup n l = Some (r_int s ps) -> exists z, lookup n got' = Some (PInt z).
Proof.
  induction l as [|[m r] l IH]; intros got buf got' n s ps E N L; cbn in *; [discriminate|].
  destruct (String.eqb n m) eqn:Q.
  - injection L as ->. unfold r_int in E at 1. destruct (read_int s ps buf) as [z|]; cbn in E; [|discriminate].
    exists z. eapply kept; [exact E|]. rewrite lookup_app_none by exact N. cbn. rewrite Q. reflexivity.
  - destruct (r got buf) as [u|]; cbn in E; [|discriminate]. eapply IH; [exact E| |exact L].
    rewrite lookup_app_none by exact N. cbn. rewrite Q. reflexivity.
Qed.
Lemma object_int : forall c buf v n s ps, unpack c buf = Ok v -> lookup n (c_fields c) = Some (r_int s ps) -> has_int n v.
Proof.
  intros c buf v n s ps. unfold unpack. destruct (unpack_fields _ _ _) as [l|] eqn:E; cbn; [|discriminate]. intros [= <-] L.
  destruct (number_read _ _ _ _ _ _ _ E eq_refl L) as [z Z]. exists z. unfold obj_int, obj_attr. rewrite Z. reflexivity.
Qed.
Lemma list_n_all : forall one (P : pyval -> Prop), (forall buf v k, one buf = Ok (v, k) -> P v) ->
  forall n buf l k, list_n one n buf = Ok (l, k) -> Forall P l.
Proof.
  intros one P H. induction n as [|n IH]; intros buf l k E; cbn in E; [injection E as <- _; constructor|].
  destruct (one buf) as [[v j]|] eqn:O; cbn in E; [|discriminate].
  destruct (list_n one n (skipn j buf)) as [[vs i]|] eqn:L; cbn in E; [|discriminate]. injection E as <- _.
  constructor; [eapply H; exact O|eapply IH; exact L].
Qed.
Lemma int_tame : forall n o, has_int n o -> tame (obj_int n o).
Proof. intros n o [z ->]. apply tame_ok. Qed.

Lemma enclosure_descriptor_tame : tame_fields (c_fields enclosure_descriptor).
Proof. unfold enclosure_descriptor; cbn [c_fields]. apply tame_app; [apply numbers_tame|]. tame_class. Qed.
Lemma enclosure_element_tame : tame_element enclosure_element.
Proof.
  intro buf. apply tame_bind; [apply unpack_tame, enclosure_descriptor_tame|]. intros v E.
  apply tame_bind; [|intros; apply tame_ok]. apply int_tame. eapply object_int; [exact E|reflexivity].
Qed.
Lemma enclosure_element_int : forall buf v k, enclosure_element buf = Ok (v, k) -> has_int "type_descriptor_headers_num" v.
Proof.
  intros buf v k. unfold enclosure_element. destruct (unpack enclosure_descriptor buf) as [u|] eqn:E; cbn [bind]; [|discriminate].
  destruct (obj_int _ u); cbn [bind]; [|discriminate]. intros [= <- _]. eapply object_int; [exact E|reflexivity].
Qed.
Lemma sum_headers_tame : forall l, Forall (has_int "type_descriptor_headers_num") l -> tame (sum_headers l).
Proof.
  induction l as [|d l IH]; intro H; cbn; [apply tame_ok|]. inversion H; subst.
  apply tame_bind; [apply int_tame; assumption|]. intros n _. apply tame_bind; [apply IH; assumption|intros; apply tame_ok].
Qed.
Definition header_ok (h : pyval) : Prop :=
  has_int "element_type" h /\ has_int "possible_elements_num" h /\ has_int "type_descriptor_text_length" h.
Lemma header_tame : tame_fields (c_fields type_descriptor_header).
Proof. apply numbers_tame. Qed.
Lemma header_element_ok : forall buf v k, elem_obj type_descriptor_header 4 buf = Ok (v, k) -> header_ok v.
Proof.
  intros buf v k. unfold elem_obj. destruct (unpack type_descriptor_header buf) as [u|] eqn:E; cbn [bind]; [|discriminate].
  intros [= <- _]. repeat split; (eapply object_int; [exact E|reflexivity]).
Qed.
Lemma per_header_tame : forall one (P : pyval -> Prop), (forall h, P h -> tame_element (one h)) ->
  forall hs buf, Forall P hs -> tame (per_header one hs buf).
Proof.
  intros one P H. induction hs as [|h hs IH]; intros buf F; cbn; [apply tame_ok|]. inversion F; subst.
  apply tame_bind; [apply H; assumption|]. intros [v k] _. apply tame_bind; [apply IH; assumption|intros; apply tame_ok].
Qed.
Lemma text_element_tame : forall neg, (forall l, tame_element (neg l)) ->
  forall h, header_ok h -> tame_element (text_element neg h).
Proof.
  intros neg N h [_ [_ H]] buf. apply tame_bind; [apply int_tame; exact H|]. intros l _. apply tame_if; [apply N|apply tame_ok].
Qed.
Lemma library_tame : forall A (r : result A), library_code r -> tame r.
Proof. intros A r [[a ->]| ->]; auto with tame. Qed.
Lemma tame_object : forall c r, tame r -> (forall v, r = Ok v -> exists l, v = PObj c l) -> object_or_refusal c r.
Proof. intros c [v|e] T H; [left; destruct (H v eq_refl) as [l ->]; eauto|right; f_equal; apply T; reflexivity]. Qed.

Lemma configuration_tame : forall neg, (forall l, tame_element (neg l)) -> forall buf, tame (configuration neg buf).
Proof.
  intros neg N buf. unfold configuration. apply tame_bind; [apply fields_tame, numbers_tame|]. intros got _.
  apply tame_bind; [apply list_n_tame, enclosure_element_tame|]. intros [encl k] E.
  apply tame_bind. { apply sum_headers_tame. eapply list_n_all; [apply enclosure_element_int|exact E]. }
  intros n _. apply tame_bind; [apply list_n_tame, elem_obj_tame, header_tame|]. intros [hs j] Hs.
  apply tame_bind; [|intros; apply tame_ok]. eapply per_header_tame; [apply text_element_tame; exact N|].
  eapply list_n_all; [apply header_element_ok|exact Hs].
Qed.
Lemma configuration_object : forall neg buf v, configuration neg buf = Ok v ->
  exists l hs, v = PObj "ConfigurationDiagnosticPagesData" l /\ lookup "type_descriptor_header_list" l = Some (PList hs) /\
               Forall header_ok hs.
Proof.
  intros neg buf v. unfold configuration. destruct (unpack_fields _ _ _) as [got|] eqn:G; cbn [bind]; [|discriminate].
  destruct (list_n enclosure_element _ _) as [[encl k]|]; cbn [bind]; [|discriminate].
  destruct (sum_headers encl) as [n|]; cbn [bind]; [|discriminate].
  destruct (list_n (elem_obj _ _) _ _) as [[hs j]|] eqn:E; cbn [bind]; [|discriminate].
  destruct (per_header _ _ _) as [texts|]; cbn [bind]; [|discriminate]. intros [= <-].
  eexists. exists hs. split; [reflexivity|]. split; [|eapply list_n_all; [apply header_element_ok|exact E]].
  assert (L : forall l g buf g', unpack_fields (map reader_of l) g buf = Ok g' -> 
    forall m, lookup m g = None -> lookup m (map reader_of l) = None -> lookup m g' = None).
  { clear. induction l as [|f l IH]; intros g buf g' E m N M; cbn in E; [injection E as <-; exact N|].
    destruct (r_int _ _ g buf) as [u|]; cbn in E; [|discriminate]. cbn in M. destruct (String.eqb m (f_name f)) eqn:Q; [discriminate|].
    eapply IH; [exact E| |exact M]. rewrite lookup_app_none by exact N. cbn. rewrite Q. reflexivity. }
  rewrite lookup_app_none; [reflexivity|]. eapply L; [exact G|reflexivity|reflexivity].
Qed.

Lemma info_tame : forall n i fs, tame_fields (c_fields (status_numbers n i fs)).
Proof.
  intros. apply tame_app; [apply numbers_tame|]. apply Forall_cons; [|apply Forall_nil]. apply r_obj_tame, numbers_tame.
Qed.
Lemma general_status_tame : tame_fields (c_fields general_status).
Proof.
  apply tame_app; [apply numbers_tame|]. apply Forall_cons; [|apply Forall_nil]. apply r_obj_tame.
  apply Forall_cons; [|apply Forall_nil]. apply r_list_tame; auto with tame.
Qed.
Lemma element_class_tame : forall t, tame_fields (c_fields (element_class t)).
Proof.
  intro t. unfold element_class.
  repeat match goal with |- context [match ?x with _ => _ end] => is_var x; destruct x end;
    first [apply general_status_tame | apply info_tame].
Qed.
Lemma status_descriptor_tame : forall h, header_ok h -> tame_element (status_descriptor h).
Proof.
  intros h [T [N _]] buf. apply tame_bind; [apply int_tame; exact T|]. intros t _.
  apply tame_bind; [apply int_tame; exact N|]. intros n _. apply tame_bind; [apply unpack_tame, general_status_tame|]. intros o _.
  apply tame_bind; [apply list_n_tame, elem_obj_tame, element_class_tame|]. intros [l k] _. apply tame_ok.
Qed.
Lemma descriptor_element_tame : tame_element descriptor_element.
Proof.
  intro buf. apply tame_bind; [apply unpack_tame; unfold descriptor; tame_class|]. intros v E.
  apply tame_bind; [|intros; apply tame_ok]. apply int_tame. eapply object_int; [exact E|reflexivity].
Qed.
Lemma element_descriptor_tame : forall h, header_ok h -> tame_element (element_descriptor h).
Proof.
  intros h [_ [N _]] buf. apply tame_bind; [apply int_tame; exact N|]. intros n _.
  apply tame_bind; [apply descriptor_element_tame|]. intros [o j] _.
  apply tame_bind; [apply list_n_tame, descriptor_element_tame|]. intros [l k] _. apply tame_ok.
Qed.
Lemma supported_ses_tame : tame_fields (c_fields supported_diagnostic_pages).
Proof. unfold supported_diagnostic_pages; tame_class. Qed.
Lemma vendor_ses_tame : tame_fields (c_fields vendor_0x80_page).
Proof. unfold vendor_0x80_page; tame_class. Qed.
Lemma unknown_ses_tame : tame_fields (c_fields unknown_diagnostic_page).
Proof. apply Forall_cons; [apply r_int_tame|]. apply Forall_cons; [|apply Forall_nil]. intros got buf. apply r_int_tame. Qed.

Lemma ses_cases : forall code, (code = 0 \/ code = 1 \/ code = 2 \/ code = 7 \/ code = 128) \/
  ((forall lib conf buf, get_ses_page_data lib code conf buf = (do _ <- plain_keyword lib; unpack unknown_diagnostic_page buf)) /\
   ses_class code = "UnknownDiagnosticPageData").
Proof.
  intro c. destruct (Z.eq_dec c 0); [auto|]. destruct (Z.eq_dec c 1); [auto|]. destruct (Z.eq_dec c 2); [auto|].
  destruct (Z.eq_dec c 7); [auto 6|]. destruct (Z.eq_dec c 128); [auto 7|]. right.
  unfold get_ses_page_data, ses_class.
  repeat match goal with |- context [match ?x with _ => _ end] => is_var x; destruct x; try (split; reflexivity); try congruence end.
Qed.
Lemma ses_answers : forall lib code conf buf,
  (forall n b, library_code (negative_slice lib n b)) -> plain_keyword lib = Ok tt ->
  (code = 2 \/ code = 7 -> exists b, configuration (negative_slice lib) b = Ok conf) ->
  object_or_refusal (ses_class code) (get_ses_page_data lib code conf buf).
Proof.
  intros lib code conf buf N K C.
  assert (N' : forall l, tame_element (negative_slice lib l)) by (intros l b; apply library_tame, N).
  destruct (ses_cases code) as [[-> | [-> | [-> | [-> | ->]]]]|[E ->]].
  - apply (class_answers supported_diagnostic_pages), supported_ses_tame.
  - apply tame_object; [apply configuration_tame; exact N'|]. intros v E.
    destruct (configuration_object _ _ _ E) as [l [_ [-> _]]]. exists l; reflexivity.
  - destruct C as [b C]; [auto|]. destruct (configuration_object _ _ _ C) as [l [hs [-> [L F]]]].
    cbn [get_ses_page_data ses_class]. unfold enclosure_status, header_list, obj_attr. rewrite L.
    apply tame_object.
    + apply tame_bind; [apply fields_tame, numbers_tame|]. intros got _. cbn [bind].
      apply tame_bind; [|intros; apply tame_ok]. eapply per_header_tame; [apply status_descriptor_tame|exact F].
    + intros v. destruct (unpack_fields _ _ _); cbn [bind]; [|discriminate]. destruct (per_header _ _ _); cbn [bind]; [|discriminate].
      intros [= <-]. eauto.
  - destruct C as [b C]; [auto|]. destruct (configuration_object _ _ _ C) as [l [hs [-> [L F]]]].
    cbn [get_ses_page_data ses_class]. unfold element_descriptors, header_list, obj_attr. rewrite L.
    apply tame_object.
    + apply tame_bind; [apply fields_tame, numbers_tame|]. intros got _. cbn [bind].
      apply tame_bind; [|intros; apply tame_ok]. eapply per_header_tame; [apply element_descriptor_tame|exact F].
    + intros v. destruct (unpack_fields _ _ _); cbn [bind]; [|discriminate]. destruct (per_header _ _ _); cbn [bind]; [|discriminate].
      intros [= <-]. eauto.
  - apply (class_answers vendor_0x80_page), vendor_ses_tame.
  - rewrite E, K. apply (class_answers unknown_diagnostic_page), unknown_ses_tame.
Qed.

(** * Commands *)
Lemma parsed_anything : forall class parse a d, (forall b, object_or_refusal class (parse b)) ->
  parses_anything class d (parsed parse a d).
Proof. intros class parse a [b|] H; cbn; [apply H|reflexivity]. Qed.
Lemma vpd_command : forall code d, parses_anything (vpd_class code) d (yields (get_vpd_page code) d).
Proof.
  intros code d.
  assert (E : exists alloc, get_vpd_page code = evpd_inquiry code alloc (get_vpd_page_data code)).
  { unfold get_vpd_page, get_vpd_page_data.
    repeat match goal with |- context [match ?x with _ => _ end] => is_var x; destruct x end; eexists; reflexivity. }
  destruct E as [alloc ->]. unfold yields, evpd_inquiry, inquiry. cbn [bind o_finish]. apply parsed_anything, vpd_answers.
Qed.
Lemma standard_command : forall code evpd alloc d,
  parses_anything "StandardInquiryDataBuffer" d (yields (standard_inquiry_command code evpd alloc) d).
Proof.
  intros. unfold yields, standard_inquiry_command, inquiry. cbn [bind o_finish]. apply parsed_anything.
  apply (class_answers standard_inquiry_data), standard_tame.
Qed.
Lemma ses_command : forall lib code args o d, get_ses_page lib code args = Ok o ->
  (forall n b, library_code (negative_slice lib n b)) -> plain_keyword lib = Ok tt ->
  (forall conf, In conf args -> exists b, get_ses_page_data lib 1 PNone b = Ok conf) ->
  parses_anything (ses_class code) d (yields (get_ses_page lib code args) d).
Proof.
  intros lib code args o d E N K C.
  assert (X : exists alloc conf, get_ses_page lib code args = receive_diagnostic code alloc (get_ses_page_data lib code conf) /\
    (code = 2 \/ code = 7 -> In conf args)).
  { unfold get_ses_page in *. destruct (Z.eq_dec code 2) as [->|]; [|destruct (Z.eq_dec code 7) as [->|]].
    - destruct args as [|c [|]]; try discriminate. exists 65535, c. split; [reflexivity|]. intros; left; reflexivity.
    - destruct args as [|c [|]]; try discriminate. exists 65535, c. split; [reflexivity|]. intros; left; reflexivity.
    - destruct args as [|c args].
      + repeat match goal with |- context [match ?x with _ => _ end] => is_var x; destruct x; try congruence end;
          (eexists; exists PNone; split; [reflexivity|intros [H|H]; congruence]).
      + exfalso. revert E. clear C.
        repeat match goal with |- context [match ?x with _ => _ end] => is_var x; destruct x; try congruence end. }
  destruct X as [alloc [conf [-> I]]]. unfold yields, receive_diagnostic. cbn [bind o_finish]. apply parsed_anything.
  intro b. apply ses_answers; [exact N|exact K|]. intro H. apply C, I, H.
Qed.
Lemma rtpg_command : forall format alloc o d, rtpg format alloc = Ok o ->
  parses_anything (if format =? 0 then "TargetPortGroupLengthOnlyResponse" else "TargetPortGroupExtendedResponse") d
    (yields (rtpg format alloc) d).
Proof.
  intros format alloc o d E. unfold rtpg in *. destruct (Z.eqb_spec format 0) as [->|F0].
  - cbn [yields bind o_finish assert_ orb]. apply (parsed_anything _ (unpack rtpg_length_only)).
    apply (class_answers rtpg_length_only), rtpg_length_only_tame.
  - destruct (Z.eqb_spec format 1) as [->|F1]; [|cbn in E; discriminate].
    cbn [yields bind o_finish assert_ orb]. apply (parsed_anything _ (unpack rtpg_extended)).
    apply (class_answers rtpg_extended), rtpg_extended_tame.
Qed.
Lemma receive_copy_command : forall alloc ctl d,
  parses_anything "ReceiveCopyOperatingParametersResponse" d (yields (receive_copy alloc ctl) d).
Proof. intros. apply parsed_anything. apply (class_answers receive_copy_response), receive_copy_tame. Qed.
Lemma read_capacity_command : forall lba pmi d,
  parses_anything "ReportReadCapacityData10" d (yields (read_capacity10 lba pmi) d) /\
  parses_anything "ReportReadCapacityData16" d (yields (read_capacity16 lba pmi) d).
Proof. intros; split; apply parsed_anything; intro; apply struct_answers. Qed.
Lemma pr_in_command : forall sa alloc o d, pr_in sa alloc = Ok o ->
  (0 <= sa <= 3 -> parses_anything (pr_in_class sa) d (yields (pr_in sa alloc) d)) /\
  (~ 0 <= sa <= 3 -> yields (pr_in sa alloc) d = Err EAssertion).
Proof.
  intros sa alloc o d E. unfold pr_in in *. destruct (8 <=? alloc); cbn [assert_ bind] in *; [|discriminate].
  unfold yields; cbn [bind o_finish o_attrs]. change (attr "service_action" _) with sa.
  split; intro R.
  - destruct (pr_in_response sa) as [c|] eqn:Q.
    + apply parsed_anything. intro b. apply pr_in_answers; exact Q.
    + exfalso. assert (sa = 0 \/ sa = 1 \/ sa = 2 \/ sa = 3) as [-> | [-> | [-> | ->]]] by lia; discriminate.
  - destruct (pr_in_response sa) as [c|] eqn:Q; [|reflexivity]. exfalso. apply R.
    destruct sa as [|[[]|[]|]|]; cbn in Q; try discriminate; lia.
Qed.
Lemma check_luns_cases : forall l, check_luns l = Ok tt \/
  exists x, In x l /\ (check_luns l = Err (EUnsupportedLunAddressing x) \/ check_luns l = Err (EUnsupportedLunMethod x)).
Proof.
  induction l as [|x l IH]; cbn; [left; reflexivity|]. unfold check_lun.
  destruct (negb (Z.land x 281474976710655 =? 0)); [right; exists x; cbn; auto|].
  destruct (negb (Z.land x 13835058055282163712 =? 0)); [right; exists x; cbn; auto|]. cbn.
  destruct IH as [->|[y [I H]]]; [left; reflexivity|right; exists y; auto].
Qed.
Lemma report_luns_command : forall select alloc allow d, 16 <= alloc ->
  let r := yields (report_luns select alloc allow) d in
  object_or_refusal "ReportLunsData" r \/
  allow = false /\ exists x, r = Err (EUnsupportedLunAddressing x) \/ r = Err (EUnsupportedLunMethod x).
Proof.
  intros select alloc allow d A. cbv zeta. unfold yields, report_luns. cbn [bind o_finish o_attrs].
  unfold report_luns_finish. change (attr "allocation_length" _) with alloc.
  replace (16 <=? alloc) with true by (symmetry; apply Z.leb_le; exact A).
  destruct d as [b|]; [|left; right; reflexivity].
  assert (T : report_luns_data b = Err EInstruct \/ exists l, report_luns_data b = Ok l).
  { unfold report_luns_data. destruct (_ <? _)%nat; [auto|]. destruct (negb _); [auto|]. destruct (_ <? _); eauto. }
  destruct T as [-> | [l ->]]; cbn [bind]; [left; right; reflexivity|]. unfold normalize_luns.
  destruct allow; cbn [bind]; [left; left; eauto|].
  destruct (check_luns_cases l) as [-> | [x [_ [-> | ->]]]]; cbn [bind]; [left; left; eauto|right|right]; eauto.
Qed.
Lemma report_luns_short_command : forall select alloc allow d, alloc < 16 ->
  yields (report_luns select alloc allow) d =
    if match d with None => 0 | Some b => zlen b end =? alloc
    then Ok (match d with None => PNone | Some b => PBytes b end) else Err EAssertion.
Proof.
  intros select alloc allow d A. unfold yields, report_luns. cbn [bind o_finish o_attrs].
  unfold report_luns_finish. change (attr "allocation_length" _) with alloc.
  replace (16 <=? alloc) with false by (symmetry; apply Z.leb_gt; exact A). destruct (_ =? _); reflexivity.
Qed.
