(** RESERVE(10), RELEASE(10) and PERSISTENT RESERVE OUT. *)
From Coq Require Import String ZArith List Bool Lia.
From Verif Require Import Base BaseFacts OsCommon Instruct InstructFacts Command CdbBlock CdbPrimary SpecDevice SpecCdb CdbLemmas CdbBlockFacts UnmapFacts.
Import ListNotations.
Local Open Scope string_scope.
Local Open Scope Z_scope.

Lemma whole_be : forall n p, length p = n -> bytes_ok p -> p = be_bytes n (ub 0 n p).
Proof.
  intros n p L O. unfold ub, slice. cbn [skipn]. rewrite firstn_all2 by lia. subst n.
  symmetry. apply be_bytes_be_val. exact O.
Qed.
Lemma long_id_ub : forall id,
  match long_id_parameters id with
  | Ok p => 0 <= id < 2 ^ 64 /\ length p = 8%nat /\ bytes_ok p /\ ub 0 8 p = id
  | Err _ => ~ (0 <= id < 2 ^ 64)
  end.
Proof.
  intros id. unfold long_id_parameters, pack_buffer. rewrite pack_fields_spec.
  set (at_ := [("third_party_device_id", id)]).
  assert (P : packable [uint_field "third_party_device_id" (bytes_of 0 8) Required] at_ = true <-> (0 <= id < 2 ^ 64))
    by (subst at_; packable_tac I).
  destruct (packable _ at_).
  - pose proof (proj1 P eq_refl) as F. split; [exact F|]. split; [apply image_length|]. split; [apply image_ok|].
    assert (SEP : separate (buffer_size [uint_field "third_party_device_id" (bytes_of 0 8) Required])
                    [uint_field "third_party_device_id" (bytes_of 0 8) Required] = true) by reflexivity.
    big_powers. subst at_. read_fields SEP; code_tac I; reflexivity.
  - intros X. apply P in X. discriminate X.
Qed.
Lemma long_id_spec : forall id, 0 <= id ->
  match long_id_parameters id with
  | Ok p => id < 2 ^ 64 /\ p = be_bytes 8 id
  | Err _ => ~ id < 2 ^ 64
  end.
Proof.
  intros id N. pose proof (long_id_ub id) as H. destruct (long_id_parameters id) as [p|e].
  - destruct H as (F & L & O & <-). split; [apply F|]. apply whole_be; assumption.
  - intros X. apply H. split; assumption.
Qed.


Ltac third_party_tac f op :=
  unfold f, third_party_data, third_party_op; intros id;
  destruct (Z.ltb_spec 0 id);
  [ replace (id <=? 0) with false by (symmetry; apply Z.leb_gt; lia);
    destruct (Z.ltb_spec id 255);
    [ replace (255 <=? id) with false by (symmetry; apply Z.leb_gt; lia); cbn [bind]
    | replace (255 <=? id) with true by (symmetry; apply Z.leb_le; lia); 
      pose proof (long_id_spec id ltac:(lia)) as LI;
      destruct (long_id_parameters id) as [p|e]; cbn [bind]; [|cbn [tells]; exact LI];
      destruct LI as [LI ->];
      assert (L : zlen (be_bytes 8 id) = 8) by (unfold zlen; rewrite be_bytes_length; reflexivity);
      rewrite ?L; clear L; generalize (be_bytes 8 id); intros d ]
  | replace (id <=? 0) with true by (symmetry; apply Z.leb_le; lia);
    replace (255 <=? id) with false by (symmetry; apply Z.leb_gt; lia); cbn [bind] ];
  (issue_tac I op ltac:(unfold write_request_opt; change (2 ^ 64) with 18446744073709551616 in * ); decode_tac I; reflexivity).

Lemma reserve10_spec : forall id,
  tells (do o <- reserve10 id; request o) (id < 2 ^ 64) (third_party_data id) (third_party_op OpReserve10 id).
Proof. third_party_tac reserve10 86. Qed.
Lemma release10_spec : forall id,
  tells (do o <- release10 id; request o) (id < 2 ^ 64) (third_party_data id) (third_party_op OpRelease10 id).
Proof. third_party_tac release10 87. Qed.

Lemma third_party_inj : forall mk a b, (forall x y z u x' y' z' u', mk x y z u = mk x' y' z' u' -> x = x' /\ y = y' /\ z = z' /\ u = u') ->
  0 <= a < 2 ^ 64 -> 0 <= b < 2 ^ 64 ->
  third_party_data a = third_party_data b -> third_party_op mk a = third_party_op mk b -> a = b.
Proof.
  intros mk a b INJ A B D O. unfold third_party_data, third_party_op in *.
  destruct (Z.leb_spec a 0), (Z.leb_spec b 0); try lia;
    try (destruct (Z.ltb_spec b 255)); try (destruct (Z.ltb_spec a 255)); try (apply INJ in O; lia).
  replace (255 <=? a) with true in D by (symmetry; apply Z.leb_le; lia).
  replace (255 <=? b) with true in D by (symmetry; apply Z.leb_le; lia).
  rewrite <- (be_val_be_bytes_small 8 a), <- (be_val_be_bytes_small 8 b), D by (cbn; lia). reflexivity.
Qed.
