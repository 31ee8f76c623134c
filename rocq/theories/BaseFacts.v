(** Facts about the definitions of Base.v. *)
From Coq Require Import ZArith List Bool Lia.
From Verif Require Import Base.
Import ListNotations.
Open Scope Z_scope.

Lemma be_val_from_app : forall l1 l2 acc,
  be_val_from acc (l1 ++ l2) = be_val_from (be_val_from acc l1) l2.
Proof. induction l1; simpl; auto. Qed.

Lemma be_val_app1 : forall l b, be_val (l ++ [b]) = be_val l * 256 + b.
Proof. intros. unfold be_val. rewrite be_val_from_app. reflexivity. Qed.

Lemma be_bytes_length : forall n v, length (be_bytes n v) = n.
Proof. induction n; intros; simpl; auto. rewrite app_length, IHn. simpl. lia. Qed.

Lemma be_bytes_ok : forall n v, bytes_ok (be_bytes n v).
Proof.
  induction n; intros; simpl.
  - constructor.
  - apply Forall_app. split. apply IHn. constructor; [|constructor].
    unfold byte_ok. apply Z.mod_pos_bound. lia.
Qed.

Lemma pow256_S : forall n, 256 ^ Z.of_nat (S n) = 256 * 256 ^ Z.of_nat n.
Proof. intros. rewrite Nat2Z.inj_succ, Z.pow_succ_r by lia. reflexivity. Qed.

Lemma pow256_pos : forall n, 0 < 256 ^ Z.of_nat n.
Proof. intros. apply Z.pow_pos_nonneg; lia. Qed.

Lemma be_val_be_bytes : forall n v,
  be_val (be_bytes n v) = v mod 256 ^ Z.of_nat n.
Proof.
  induction n; intros.
  - simpl. rewrite Z.mod_1_r. reflexivity.
  - simpl be_bytes. rewrite be_val_app1, IHn, pow256_S.
    pose proof (pow256_pos n).
    rewrite Z.rem_mul_r by lia. ring.
Qed.

Lemma be_val_be_bytes_small : forall n v, 0 <= v < 256 ^ Z.of_nat n ->
  be_val (be_bytes n v) = v.
Proof. intros. rewrite be_val_be_bytes. apply Z.mod_small; auto. Qed.

Lemma be_val_bounds : forall l, bytes_ok l -> 0 <= be_val l < 256 ^ zlen l.
Proof.
  intros l. induction l using rev_ind; intros.
  - unfold be_val, zlen; simpl. lia.
  - apply Forall_app in H. destruct H as [H1 H2]. inversion H2; subst.
    rewrite be_val_app1. unfold zlen in *. rewrite app_length. simpl length.
    replace (length l + 1)%nat with (S (length l)) by lia.
    rewrite pow256_S. specialize (IHl H1). unfold byte_ok in H3. lia.
Qed.

Lemma be_bytes_be_val : forall l, bytes_ok l -> be_bytes (length l) (be_val l) = l.
Proof.
  intros l. induction l using rev_ind; intros; auto.
  apply Forall_app in H. destruct H as [H1 H2]. inversion H2; subst.
  unfold byte_ok in H3.
  rewrite app_length. simpl length. replace (length l + 1)%nat with (S (length l)) by lia.
  simpl be_bytes. rewrite be_val_app1.
  replace ((be_val l * 256 + x) / 256) with (be_val l)
    by (rewrite Z.add_comm, Z.div_add by lia; rewrite Z.div_small by lia; lia).
  replace ((be_val l * 256 + x) mod 256) with x
    by (rewrite Z.add_comm, Z.mod_add by lia; rewrite Z.mod_small by lia; lia).
  rewrite IHl by auto. reflexivity.
Qed.

Lemma bytes_ok_app : forall a b, bytes_ok (a ++ b) <-> bytes_ok a /\ bytes_ok b.
Proof. intros. apply Forall_app. Qed.

Lemma bytes_ok_zeros : forall n, bytes_ok (zeros n).
Proof. induction n; simpl; constructor; auto. unfold byte_ok; lia. Qed.

Lemma bytes_ok_firstn : forall n l, bytes_ok l -> bytes_ok (firstn n l).
Proof.
  induction n; intros; simpl. { constructor. }
  destruct l; [constructor|]. inversion H; subst. constructor; auto.
  apply IHn; assumption.
Qed.

Lemma bytes_ok_skipn : forall n l, bytes_ok l -> bytes_ok (skipn n l).
Proof.
  induction n; intros; simpl; auto. destruct l; auto. inversion H; subst. apply IHn; assumption.
Qed.

Lemma bytes_ok_slice : forall a b l, bytes_ok l -> bytes_ok (slice a b l).
Proof. intros. apply bytes_ok_firstn, bytes_ok_skipn, H. Qed.

Lemma slice_length : forall a b l, (b <= length l)%nat -> (a <= b)%nat ->
  length (slice a b l) = (b - a)%nat.
Proof. intros. unfold slice. rewrite firstn_length, skipn_length. lia. Qed.

Lemma byte_at_ok : forall i l, bytes_ok l -> byte_ok (byte_at i l).
Proof.
  intros. unfold byte_at. destruct (Nat.lt_ge_cases i (length l)).
  - unfold bytes_ok in H. rewrite Forall_forall in H. apply H. apply nth_In; auto.
  - rewrite nth_overflow by auto. unfold byte_ok; lia.
Qed.

Lemma bind_ok : forall A B (r : result A) (f : A -> result B) b,
  bind r f = Ok b -> exists a, r = Ok a /\ f a = Ok b.
Proof. intros. destruct r; simpl in H; try discriminate. eauto. Qed.

Lemma assert_ok : forall c u, assert_ c = Ok u -> c = true.
Proof. intros. destruct c; auto. discriminate. Qed.
