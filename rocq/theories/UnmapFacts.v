(** UNMAP: the parameter list and the CDB. *)
From Coq Require Import String ZArith List Bool Lia.
From Verif Require Import Base BaseFacts OsCommon Instruct InstructFacts Command CdbBlock SpecDevice SpecCdb CdbLemmas CdbBlockFacts.
Import ListNotations.
Local Open Scope string_scope.
Local Open Scope Z_scope.

Lemma slice_prefix : forall a b (l r : bytes), (b <= length l)%nat -> slice a b (l ++ r)%list = slice a b l.
Proof.
  intros a b l r H. unfold slice. rewrite skipn_app, firstn_app, skipn_length.
  replace (b - a - (length l - a))%nat with 0%nat by lia. cbn [firstn]. rewrite app_nil_r. reflexivity.
Qed.
Lemma ub_prefix : forall a b l r, (b <= length l)%nat -> ub a b (l ++ r)%list = ub a b l.
Proof. intros. unfold ub. rewrite slice_prefix by assumption. reflexivity. Qed.
Lemma skipn_exact : forall A n (l r : list A), length l = n -> skipn n (l ++ r)%list = r.
Proof. intros A n l r <-. rewrite skipn_app, skipn_all, Nat.sub_diag. reflexivity. Qed.

Definition range_fits (r : Z * Z) : Prop := 0 <= fst r < 2 ^ 64 /\ 0 <= snd r < 2 ^ 32.

Lemma unmap_block_spec : forall r,
  match unmap_block r with
  | Ok b => range_fits r /\ length b = 16%nat /\ ub 0 8 b = fst r /\ ub 8 12 b = snd r
  | Err _ => ~ range_fits r
  end.
Proof.
  intros [a n]. unfold unmap_block, pack_struct, range_fits. rewrite pack_fields_spec. cbn [fst snd].
  set (at_ := [("unmap_lba", a); ("number_of_logical_blocks", n)]).
  assert (P : packable (struct_fields 0 unmap_block_fields) at_ = true <-> (0 <= a < 2 ^ 64 /\ 0 <= n < 2 ^ 32))
    by (subst at_; packable_tac I).
  destruct (packable _ at_).
  - pose proof (proj1 P eq_refl) as F. split; [exact F|]. split; [apply image_length|].
    assert (SEP : separate (struct_size unmap_block_fields) (struct_fields 0 unmap_block_fields) = true) by reflexivity.
    big_powers. subst at_. split; read_fields SEP; code_tac I; reflexivity.
  - intros X. apply P in X. discriminate X.
Qed.

Lemma unmap_blocks_spec : forall ranges,
  match unmap_blocks ranges with
  | Ok bs => Forall range_fits ranges /\ length bs = (16 * length ranges)%nat /\
             forall n, n = length ranges -> unmap_ranges n bs = ranges
  | Err _ => ~ Forall range_fits ranges
  end.
Proof.
  induction ranges as [|r rest IH]; cbn [unmap_blocks].
  - repeat split; auto. intros n ->. reflexivity.
  - pose proof (unmap_block_spec r) as B. destruct (unmap_block r) as [b|e]; cbn [bind].
    2:{ intros F. inversion F; contradiction. }
    destruct B as (F & L & A & N).
    destruct (unmap_blocks rest) as [bs|e]; cbn [bind].
    2:{ intros X. inversion X; contradiction. }
    destruct IH as (FR & LR & R). split; [constructor; assumption|].
    split. { rewrite app_length. cbn [length]. lia. }
    intros n ->. cbn [length unmap_ranges].
    rewrite !ub_prefix by lia. rewrite A, N, skipn_exact by exact L. rewrite R by reflexivity.
    destruct r; reflexivity.
Qed.

Lemma unmap_header_spec : forall n, 0 <= n ->
  match unmap_header n with
  | Ok h => n + 7 < 2 ^ 16 /\ length h = 8%nat /\ ub 0 2 h = n + 7 /\ ub 2 4 h = n
  | Err _ => ~ (n + 7 < 2 ^ 16)
  end.
Proof.
  intros n N. unfold unmap_header, pack_struct. rewrite pack_fields_spec.
  set (at_ := [("unmap_data_length", n + 7); ("unmap_block_descriptor_data_length", n)]).
  assert (P : packable (struct_fields 0 unmap_header_fields) at_ = true <-> n + 7 < 2 ^ 16)
    by (subst at_; packable_tac I).
  destruct (packable _ at_).
  - pose proof (proj1 P eq_refl) as F. split; [exact F|]. split; [apply image_length|].
    assert (SEP : separate (struct_size unmap_header_fields) (struct_fields 0 unmap_header_fields) = true) by reflexivity.
    big_powers. subst at_. split; read_fields SEP; code_tac I; reflexivity.
  - intros X. apply P in X. discriminate X.
Qed.


Lemma unmap_cdb : forall n kw p, only_sets ["GROUP_NUMBER"] kw -> 0 <= n < 2 ^ 16 ->
  tells (request (assigned kw (CdbObject [("parameter_list_length", n)] (pack_struct unmap_fields) (write_request p) raw_result)))
    (settings_fit [("GROUP_NUMBER", 5)] kw) p (OpUnmap 0 (setting "GROUP_NUMBER" kw) n).
Proof.
  intros n kw p K N.
  issue_tac K 66 ltac:(unfold write_request). decode_tac K. reflexivity.
Qed.

Lemma unmap_spec : forall ranges kw, only_sets ["GROUP_NUMBER"] kw ->
  match (do o <- unmap ranges; request (assigned kw o)) with
  | Ok (WriteCmd cdb p) =>
      unmap_fits ranges kw /\ interpret cdb = Some (OpUnmap 0 (setting "GROUP_NUMBER" kw) (zlen p)) /\
      zlen p = 8 + 16 * zlen ranges /\ unmap_block_descriptor_length p = 16 * zlen ranges /\
      unmap_descriptors p = ranges /\ unmap_data_length p = zlen p - 1
  | Ok (ReadCmd _ _) => False
  | Err _ => ~ unmap_fits ranges kw
  end.
Proof.
  intros ranges kw K. unfold unmap.
  pose proof (unmap_blocks_spec ranges) as B. destruct (unmap_blocks ranges) as [bs|e]; cbn [bind].
  2:{ intros (F & _). apply B. exact F. }
  destruct B as (F & L & R).
  assert (LZ : zlen bs = 16 * zlen ranges) by (unfold zlen; lia).
  pose proof (unmap_header_spec (zlen bs) ltac:(unfold zlen; lia)) as H.
  destruct (unmap_header (zlen bs)) as [h|e]; cbn [bind].
  2:{ intros (_ & N & _). apply H. change (2 ^ 16) with 65536. lia. }
  destruct H as (HN & HL & H1 & H2). change (2 ^ 16) with 65536 in HN.
  set (p := (h ++ bs)%list).
  assert (PL : zlen p = 8 + 16 * zlen ranges) by (subst p; unfold zlen in *; rewrite app_length; lia).
  pose proof (unmap_cdb (zlen p) kw p K ltac:(change (2 ^ 16) with 65536; unfold zlen in *; lia)) as C.
  destruct (request _) as [[cdb d|cdb d]|e]; cbn [tells] in C.
  - contradiction.
  - destruct C as (S & -> & C).
    split. { split; [exact F|]. split; [lia|exact S]. }
    split; [exact C|]. split; [exact PL|].
    assert (X : unmap_block_descriptor_length p = 16 * zlen ranges).
    { unfold unmap_block_descriptor_length. subst p. rewrite ub_prefix by lia. rewrite H2. exact LZ. }
    split; [exact X|]. split.
    + unfold unmap_descriptors. rewrite X. subst p. rewrite skipn_exact by exact HL. apply R.
      rewrite Z.mul_comm, Z.div_mul by lia. unfold zlen. apply Nat2Z.id.
    + unfold unmap_data_length. subst p. rewrite ub_prefix by lia. rewrite H1. lia.
  - intros (_ & _ & S). contradiction.
Qed.
