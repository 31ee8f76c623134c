(** PERSISTENT RESERVE OUT: the CDB and the parameter lists. *)
From Coq Require Import String ZArith List Bool Lia.
From Verif Require Import Base BaseFacts OsCommon Instruct InstructFacts Command CdbBlock CdbPrimary SpecDevice SpecCdb CdbLemmas CdbBlockFacts UnmapFacts.
Import ListNotations.
Local Open Scope string_scope.
Local Open Scope Z_scope.

Lemma pr_out_cdb : forall sa pr_type n p, 0 <= n ->
  tells (request (CdbObject [("service_action", sa); ("pr_type", pr_type); ("parameter_list_length", n)]
                    (pack_buffer pr_out_fields) (fun _ cdb => WriteCmd cdb p) raw_result))
    (0 <= sa < 2 ^ 5 /\ 0 <= pr_type < 2 ^ 4 /\ n < 2 ^ 32) p (OpPrOut sa 0 pr_type n).
Proof.
  intros sa pr_type n p N. issue_tac I 95 ltac:(idtac). decode_tac I. reflexivity.
Qed.

(** [x] is one of the conditions; all of them hold. *)
Lemma if_true : forall A (b : bool) (x y : A), b = true -> (if b then x else y) = x.
Proof. intros A b x y ->. reflexivity. Qed.


Lemma basic_spec : forall key sakey kw, only_sets basic_names kw ->
  match pack_buffer basic_parameter_list_fields
          (("reservation_key", key) :: ("service_action_reservation_key", sakey) :: kw) with
  | Ok p => (0 <= key < 2 ^ 64 /\ 0 <= sakey < 2 ^ 64 /\
             settings_fit [("all_target_ports", 1); ("specify_initiator_ports", 1)] kw) /\
            zlen p = 24 /\
            pr_basic p = Some (PrParameters key sakey 0 (setting "all_target_ports" kw) (setting "specify_initiator_ports" kw))
  | Err _ => ~ (0 <= key < 2 ^ 64 /\ 0 <= sakey < 2 ^ 64 /\
                settings_fit [("all_target_ports", 1); ("specify_initiator_ports", 1)] kw)
  end.
Proof.
  intros key sakey kw K. unfold basic_names in K. unfold pack_buffer. rewrite pack_fields_spec.
  set (at_ := ("reservation_key", key) :: ("service_action_reservation_key", sakey) :: kw).
  assert (P : packable basic_parameter_list_fields at_ = true <->
              (0 <= key < 2 ^ 64 /\ 0 <= sakey < 2 ^ 64 /\
               settings_fit [("all_target_ports", 1); ("specify_initiator_ports", 1)] kw))
    by (subst at_; packable_tac K).
  destruct (packable _ at_).
  - pose proof (proj1 P eq_refl) as F. split; [exact F|].
    assert (L : zlen (image (buffer_size basic_parameter_list_fields) basic_parameter_list_fields at_) = 24)
      by (unfold zlen; rewrite image_length; reflexivity).
    split; [exact L|].
    assert (SEP : separate (buffer_size basic_parameter_list_fields) basic_parameter_list_fields = true)
      by (vm_compute; reflexivity).
    big_powers. range_facts F. unfold pr_basic. rewrite L.
    rewrite if_true; [subst at_; read_fields SEP; code_tac K; reflexivity|].
    rewrite !andb_true_iff. subst at_. split; [split; [reflexivity|]|].
    + read_fields SEP; code_tac K; reflexivity.
    + clear_tac K SEP.
  - intros X. apply P in X. discriminate X.
Qed.


Lemma transport_id_spec : forall t,
  match pack_transport_id t with
  | Ok p => (0 <= protocol_identifier t < 2 ^ 4 /\ 0 <= format_code t < 2 ^ 2) /\
            p = (protocol_identifier t + 64 * format_code t) :: specific_data t
  | Err _ => ~ (0 <= protocol_identifier t < 2 ^ 4 /\ 0 <= format_code t < 2 ^ 2)
  end.
Proof.
  intros [pi fc d]. unfold pack_transport_id, pack_buffer. cbn [protocol_identifier format_code specific_data].
  rewrite pack_fields_spec.
  set (at_ := [("protocol_identifier", pi); ("format_code", fc)]).
  assert (P : packable transport_id_fields at_ = true <-> (0 <= pi < 2 ^ 4 /\ 0 <= fc < 2 ^ 2))
    by (subst at_; packable_tac I).
  destruct (packable _ at_); cbn [bind].
  - pose proof (proj1 P eq_refl) as F. split; [exact F|].
    assert (L : length (image (buffer_size transport_id_fields) transport_id_fields at_) = 1%nat) by apply image_length.
    pose proof (image_ok (buffer_size transport_id_fields) transport_id_fields at_) as O.
    assert (SEP : separate (buffer_size transport_id_fields) transport_id_fields = true) by (vm_compute; reflexivity).
    assert (B : byte_at 0 (image (buffer_size transport_id_fields) transport_id_fields at_) = pi + 64 * fc).
    { assert (S : forall c, bytes_ok c -> byte_at 0 c = bf 0 0 4 c + 16 * bf 0 4 2 c + 64 * bf 0 6 2 c).
      { intros c C. pose proof (byte_at_ok 0 c C) as R. unfold byte_ok in R. unfold bf.
        change (2 ^ Z.of_nat 0) with 1. change (2 ^ Z.of_nat 4) with 16. change (2 ^ Z.of_nat 2) with 4.
        change (2 ^ Z.of_nat 6) with 64. Z.to_euclidean_division_equations. lia. }
      rewrite S by exact O. big_powers. destruct F. subst at_. read_fields SEP; code_tac I. lia. }
    destruct (image _ _ at_) as [|x [|]]; try discriminate L. cbn in B. rewrite B. reflexivity.
  - intros X. apply P in X. discriminate X.
Qed.

Lemma move_header : forall key sakey kw n, only_sets move_names kw -> 0 <= n ->
  match pack_buffer register_and_move_fields
          (("transport_id_length", n) :: ("reservation_key", key) :: ("service_action_reservation_key", sakey) :: kw) with
  | Ok p => (0 <= key < 2 ^ 64 /\ 0 <= sakey < 2 ^ 64 /\ n < 2 ^ 32 /\ settings_fit move_widths kw) /\
            length p = 24%nat /\ ub 20 24 p = n /\ clear [whole 16; (17, 2, 6)]%nat p = true /\
            ub 0 8 p = key /\ ub 8 16 p = sakey /\
            bf 17 0 1 p = setting "activate_persist_through_power_loss" kw /\ bf 17 1 1 p = setting "unregister" kw /\
            ub 18 20 p = setting "relative_target_port_identifier" kw
  | Err _ => ~ (0 <= key < 2 ^ 64 /\ 0 <= sakey < 2 ^ 64 /\ n < 2 ^ 32 /\ settings_fit move_widths kw)
  end.
Proof.
  intros key sakey kw n K N. unfold move_names, move_widths in *. unfold pack_buffer. rewrite pack_fields_spec.
  set (at_ := ("transport_id_length", n) :: ("reservation_key", key) :: ("service_action_reservation_key", sakey) :: kw).
  match goal with |- context [~ ?ok] => assert (P : packable register_and_move_fields at_ = true <-> ok)
    by (subst at_; packable_tac K) end.
  destruct (packable _ at_).
  - pose proof (proj1 P eq_refl) as F. split; [exact F|]. split; [apply image_length|].
    assert (SEP : separate (buffer_size register_and_move_fields) register_and_move_fields = true)
      by (vm_compute; reflexivity).
    big_powers. range_facts F. subst at_.
    repeat match goal with |- _ /\ _ => split end.
    2: clear_tac K SEP.
    all: read_fields SEP; code_tac K; reflexivity.
  - intros X. apply P in X. discriminate X.
Qed.

Lemma byte_at_prefix : forall k (l r : bytes), (k < length l)%nat -> byte_at k (l ++ r)%list = byte_at k l.
Proof. intros. unfold byte_at. apply app_nth1. assumption. Qed.
Lemma bf_prefix : forall k lo w l r, (k < length l)%nat -> bf k lo w (l ++ r)%list = bf k lo w l.
Proof. intros. unfold bf. rewrite byte_at_prefix by assumption. reflexivity. Qed.


Lemma register_and_move_spec : forall key sakey kw t, only_sets move_names kw ->
  match register_and_move_list [("reservation_key", key); ("service_action_reservation_key", sakey)] kw t with
  | Ok p => (0 <= key < 2 ^ 64 /\ 0 <= sakey < 2 ^ 64 /\ zlen (specific_data t) + 1 < 2 ^ 32 /\ settings_fit move_widths kw /\
             0 <= protocol_identifier t < 2 ^ 4 /\ 0 <= format_code t < 2 ^ 2) /\
            zlen p = 25 + zlen (specific_data t) /\
            pr_register_and_move p =
              Some (PrMove key sakey (setting "activate_persist_through_power_loss" kw) (setting "unregister" kw)
                      (setting "relative_target_port_identifier" kw)
                      ((protocol_identifier t + 64 * format_code t) :: specific_data t))
  | Err _ => ~ (0 <= key < 2 ^ 64 /\ 0 <= sakey < 2 ^ 64 /\ zlen (specific_data t) + 1 < 2 ^ 32 /\ settings_fit move_widths kw /\
             0 <= protocol_identifier t < 2 ^ 4 /\ 0 <= format_code t < 2 ^ 2)
  end.
Proof.
  intros key sakey kw t K. unfold register_and_move_list.
  pose proof (transport_id_spec t) as T. destruct (pack_transport_id t) as [tid|e]; cbn [bind].
  2:{ intros X. apply T. tauto. }
  destruct T as (TF & ->).
  set (d := specific_data t) in *. set (x := protocol_identifier t + 64 * format_code t).
  assert (LT : zlen (x :: d) = zlen d + 1) by (unfold zlen; cbn [length]; lia).
  pose proof (move_header key sakey kw (zlen (x :: d)) K ltac:(unfold zlen; lia)) as H. cbn [app].
  destruct (pack_buffer _ _) as [p|e]; cbn [bind].
  2:{ intros X. apply H. rewrite LT. tauto. }
  destruct H as (F & L & H).
  split. { rewrite <- LT. tauto. }
  assert (PL : zlen (p ++ x :: d)%list = 25 + zlen d) by (unfold zlen; rewrite app_length, L; cbn [length]; lia).
  split; [exact PL|].
  destruct H as (U & C & K1 & K2 & A & R & PO).
  unfold pr_register_and_move. rewrite PL. rewrite !ub_prefix by lia. rewrite U, LT.
  assert (C' : clear [whole 16; (17, 2, 6)]%nat (p ++ x :: d)%list = true).
  { revert C. unfold clear, whole. cbn [forallb]. rewrite !bf_prefix by lia. auto. }
  rewrite C', K1, K2, PO, !bf_prefix, A, R by lia. rewrite skipn_exact by exact L.
  rewrite if_true; [reflexivity|].
  rewrite !andb_true_iff, Z.leb_le, Z.eqb_eq. unfold zlen. repeat split; lia.
Qed.


Lemma basic_class : forall sa, 0 <= sa <= 8 -> sa <> 7 -> parameter_list_class_of sa = Some Basic.
Proof.
  intros sa A B. assert (sa = 0 \/ sa = 1 \/ sa = 2 \/ sa = 3 \/ sa = 4 \/ sa = 5 \/ sa = 6 \/ sa = 8) as D by lia.
  repeat destruct D as [->|D]; try reflexivity. subst sa. reflexivity.
Qed.
Lemma no_class : forall sa, ~ 0 <= sa <= 8 -> parameter_list_class_of sa = None.
Proof.
  intros sa A. unfold parameter_list_class_of.
  destruct sa as [|p|p]; [lia| |reflexivity].
  do 4 (destruct p as [p|p|]; try reflexivity; try lia).
Qed.

Lemma pr_out_basic_spec : forall sa key sakey pr_type kw, 0 <= sa <= 8 -> sa <> 7 -> only_sets basic_names kw ->
  match (do o <- pr_out sa key sakey pr_type kw None; request o) with
  | Ok (WriteCmd cdb p) =>
      basic_fits key sakey pr_type kw /\ interpret cdb = Some (OpPrOut sa 0 pr_type (zlen p)) /\ zlen p = 24 /\
      pr_basic p = Some (PrParameters key sakey 0 (setting "all_target_ports" kw) (setting "specify_initiator_ports" kw))
  | Ok (ReadCmd _ _) => False
  | Err _ => ~ basic_fits key sakey pr_type kw
  end.
Proof.
  intros sa key sakey pr_type kw S7 S K. unfold pr_out, basic_fits. rewrite basic_class by assumption.
  cbn [app]. pose proof (basic_spec key sakey kw K) as B.
  destruct (pack_buffer _ _) as [p|e]; cbn [bind]; [|tauto].
  destruct B as (F & L & B).
  pose proof (pr_out_cdb sa pr_type (zlen p) p ltac:(unfold zlen; lia)) as C.
  destruct (request _) as [[cdb n|cdb q]|e]; cbn [tells] in C.
  - exact C.
  - destruct C as (G & -> & C). repeat split; tauto.
  - intros X. apply C. rewrite L. change (2 ^ 5) with 32. change (2 ^ 32) with 4294967296. split; [lia|]. split; [tauto|lia].
Qed.

Lemma pr_out_move_spec : forall key sakey pr_type kw t, only_sets move_names kw ->
  match (do o <- pr_out 7 key sakey pr_type kw (Some t); request o) with
  | Ok (WriteCmd cdb p) =>
      move_fits key sakey pr_type kw t /\ interpret cdb = Some (OpPrOut 7 0 pr_type (zlen p)) /\
      zlen p = 25 + zlen (specific_data t) /\
      pr_register_and_move p =
        Some (PrMove key sakey (setting "activate_persist_through_power_loss" kw) (setting "unregister" kw)
                (setting "relative_target_port_identifier" kw)
                ((protocol_identifier t + 64 * format_code t) :: specific_data t))
  | Ok (ReadCmd _ _) => False
  | Err _ => ~ move_fits key sakey pr_type kw t
  end.
Proof.
  intros key sakey pr_type kw t K. unfold pr_out, move_fits. cbn [parameter_list_class_of].
  pose proof (register_and_move_spec key sakey kw t K) as B.
  destruct (register_and_move_list _ _ _) as [p|e]; cbn [bind].
  2:{ intros X. apply B. decompose [and] X. repeat match goal with |- _ /\ _ => split end; try assumption. lia. }
  destruct B as (F & L & B).
  pose proof (pr_out_cdb 7 pr_type (zlen p) p ltac:(unfold zlen; lia)) as C.
  destruct (request _) as [[cdb n|cdb q]|e]; cbn [tells] in C.
  - exact C.
  - destruct C as (G & -> & C). decompose [and] F. decompose [and] G.
    repeat match goal with |- _ /\ _ => split end; try assumption. lia.
  - intros X. apply C. decompose [and] X. rewrite L. change (2 ^ 5) with 32.
    repeat match goal with |- _ /\ _ => split end; try assumption; lia.
Qed.
Lemma pr_out_refuses : forall sa key sakey pr_type kw t,
  (~ 0 <= sa <= 8 \/ (sa = 7 /\ t = None) \/ (sa <> 7 /\ t <> None)) ->
  exists e, pr_out sa key sakey pr_type kw t = Err e.
Proof.
  intros sa key sakey pr_type kw t H. unfold pr_out.
  destruct (parameter_list_class_of sa) as [[]|] eqn:C; [| |eexists; reflexivity].
  - destruct t; [eexists; reflexivity|]. exfalso. destruct H as [H|[[-> _]|[_ H]]].
    + rewrite (no_class sa H) in C. discriminate C.
    + discriminate C.
    + congruence.
  - destruct t; [|eexists; reflexivity]. exfalso. destruct H as [H|[[_ H]|[H _]]].
    + rewrite (no_class sa H) in C. discriminate C.
    + discriminate H.
    + destruct (Z_le_dec 0 sa), (Z_le_dec sa 8); try (rewrite no_class in C by lia; discriminate C).
      rewrite basic_class in C by lia. discriminate C.
Qed.
