(** Lemmas on the model of infi.instruct: packing into disjoint fields can be read back. *)
From Coq Require Import String ZArith List Bool Lia.
From Verif Require Import Base BaseFacts Instruct.
Import ListNotations.
Local Open Scope Z_scope.

(** * Bits *)
Lemma bits_value_bounds : forall l, 0 <= bits_value l < 2 ^ zlen l.
Proof.
  induction l as [|b r IH]; [cbn; lia|].
  cbn [bits_value]. unfold zlen in *. cbn [length]. rewrite Nat2Z.inj_succ, Z.pow_succ_r by lia.
  destruct b; cbn [Z.b2z]; lia.
Qed.

Lemma bits_value_testbit : forall l i, Z.testbit (bits_value l) (Z.of_nat i) = nth i l false.
Proof.
  induction l as [|b r IH]; intros i; [cbn; rewrite Z.testbit_0_l; destruct i; reflexivity|].
  cbn [bits_value]. rewrite Z.add_comm. destruct i as [|i].
  - rewrite Z.testbit_0_r. reflexivity.
  - rewrite Nat2Z.inj_succ, Z.testbit_succ_r by lia. exact (IH i).
Qed.

Lemma testbit_high : forall v n i, 0 <= v < 2 ^ n -> n <= i -> Z.testbit v i = false.
Proof.
  intros v n i H L. destruct (Z.eq_dec v 0) as [->|N]; [apply Z.testbit_0_l|].
  apply Z.bits_above_log2; [lia|]. apply Z.log2_lt_pow2; [lia|].
  apply Z.lt_le_trans with (2 ^ n); [lia|]. apply Z.pow_le_mono_r; lia.
Qed.

Lemma bits_eq : forall u v n, 0 <= u < 2 ^ Z.of_nat n -> 0 <= v < 2 ^ Z.of_nat n ->
  (forall i, (i < n)%nat -> Z.testbit u (Z.of_nat i) = Z.testbit v (Z.of_nat i)) -> u = v.
Proof.
  intros u v n Hu Hv H. apply Z.bits_inj'. intros k Hk.
  destruct (Z.lt_ge_cases k (Z.of_nat n)) as [L|G].
  - rewrite <- (Z2Nat.id k) by lia. apply H. lia.
  - rewrite (testbit_high u (Z.of_nat n)), (testbit_high v (Z.of_nat n)) by assumption. reflexivity.
Qed.

Lemma bits_value_testbits : forall n v, 0 <= v < 2 ^ Z.of_nat n ->
  bits_value (map (fun i => Z.testbit v (Z.of_nat i)) (seq 0 n)) = v.
Proof.
  intros n v Hv. apply (bits_eq _ _ n); [|exact Hv|].
  - generalize (bits_value_bounds (map (fun i => Z.testbit v (Z.of_nat i)) (seq 0 n))).
    unfold zlen. rewrite map_length, seq_length. auto.
  - intros i Hi. rewrite bits_value_testbit.
    rewrite (nth_indep _ false (Z.testbit v (Z.of_nat 0))) by (rewrite map_length, seq_length; lia).
    rewrite (map_nth (fun i => Z.testbit v (Z.of_nat i))), seq_nth by lia. reflexivity.
Qed.

(** * Making bytes from bits *)
Lemma make_bytes_length : forall n f, length (make_bytes n f) = n.
Proof. intros. unfold make_bytes. rewrite map_length, seq_length. reflexivity. Qed.

Lemma make_bytes_ok : forall n f, bytes_ok (make_bytes n f).
Proof.
  intros n f. apply Forall_forall. intros x H. apply in_map_iff in H. destruct H as [k [<- _]].
  exact (bits_value_bounds (map (fun i => f (8 * k + i)%nat) (seq 0 8))).
Qed.

Lemma byte_at_make : forall n f k, (k < n)%nat ->
  byte_at k (make_bytes n f) = bits_value (map (fun i => f (8 * k + i)%nat) (seq 0 8)).
Proof.
  intros n f k H. unfold byte_at, make_bytes.
  set (g := fun k => bits_value (map (fun i => f (8 * k + i)%nat) (seq 0 8))).
  rewrite (nth_indep _ 0 (g O)) by (rewrite map_length, seq_length; exact H).
  rewrite map_nth, seq_nth by exact H. reflexivity.
Qed.

Lemma bit_at_make : forall n f p, (p < 8 * n)%nat -> bit_at (make_bytes n f) p = f p.
Proof.
  intros n f p H. unfold bit_at.
  assert (D : (p / 8 < n)%nat) by (apply Nat.div_lt_upper_bound; lia).
  rewrite byte_at_make by exact D. rewrite bits_value_testbit.
  assert (M : (p mod 8 < 8)%nat) by (apply Nat.mod_upper_bound; lia).
  set (g := fun i => f (8 * (p / 8) + i)%nat).
  rewrite (nth_indep _ false (g O)) by (rewrite map_length, seq_length; exact M).
  rewrite map_nth, seq_nth by exact M. unfold g. f_equal.
  rewrite (Nat.div_mod p 8) at 3 by lia. lia.
Qed.

(** * Disjoint fields *)
Lemma index_of_in : forall p ps i, index_of p ps = Some i -> nth_error ps i = Some p.
Proof.
  intros p ps. induction ps as [|q r IH]; intros i H; [discriminate|]. cbn in H.
  destruct (p =? q)%nat eqn:E.
  - inversion H; subst. apply Nat.eqb_eq in E. subst. reflexivity.
  - destruct (index_of p r) as [j|] eqn:J; [|discriminate]. inversion H; subst. cbn. auto.
Qed.

Lemma index_of_none : forall p ps, index_of p ps = None <-> ~ In p ps.
Proof.
  intros p ps. induction ps as [|q r IH]; [cbn; tauto|]. cbn.
  destruct (p =? q)%nat eqn:E.
  - apply Nat.eqb_eq in E. subst. split; [discriminate|]. intros H. exfalso. apply H. auto.
  - apply Nat.eqb_neq in E. destruct (index_of p r) as [j|].
    + split; [discriminate|]. intros H. exfalso. apply IH; [|reflexivity] || idtac.
      assert (N : ~ In p r) by tauto. destruct IH as [_ IH]. specialize (IH N). discriminate.
    + split; [|reflexivity]. intros _ [X|X]; [congruence|]. destruct IH as [IH _]. exact (IH eq_refl X).
Qed.

Lemma index_of_nodup : forall ps i p, NoDup ps -> nth_error ps i = Some p -> index_of p ps = Some i.
Proof.
  induction ps as [|q r IH]; intros i p N H; [destruct i; discriminate|].
  inversion N; subst. cbn. destruct i as [|i]; cbn in H.
  - inversion H; subst. rewrite Nat.eqb_refl. reflexivity.
  - destruct (p =? q)%nat eqn:E.
    + apply Nat.eqb_eq in E. subst. exfalso. apply H2. eapply nth_error_In; eauto.
    + rewrite (IH i p) by assumption. reflexivity.
Qed.

Lemma written_untouched : forall w acc p, ~ In p (flat_map fst w) -> written acc w p = acc.
Proof.
  induction w as [|[ps v] r IH]; intros acc p H; [reflexivity|]. cbn in *.
  rewrite in_app_iff in H. rewrite (proj2 (index_of_none p ps)) by tauto. apply IH. tauto.
Qed.

Lemma nodup_app : forall A (a b : list A), NoDup (a ++ b) ->
  NoDup a /\ NoDup b /\ (forall x, In x a -> ~ In x b).
Proof.
  induction a as [|x a IH]; intros b H; cbn in *.
  - split; [constructor|]. split; [exact H|]. intros ? [].
  - inversion H; subst. destruct (IH b H3) as [A1 [A2 A3]]. rewrite in_app_iff in H2.
    split; [constructor; tauto|]. split; [exact A2|]. intros y [->|Y]; [tauto|auto].
Qed.

Lemma written_here : forall w acc ps v i p, NoDup (flat_map fst w) -> In (ps, v) w ->
  nth_error ps i = Some p -> written acc w p = Z.testbit v (Z.of_nat i).
Proof.
  induction w as [|[qs u] r IH]; intros acc ps v i p N H E; [contradiction|]. cbn in *.
  apply nodup_app in N. destruct N as [N1 [N2 N3]]. destruct H as [X|X].
  - inversion X; subst. rewrite (index_of_nodup ps i p N1 E). apply written_untouched.
    apply N3. eapply nth_error_In; eauto.
  - eapply IH; eauto.
Qed.

(** Fields that do not overlap and lie in the first [n] bytes, decidably. *)
Fixpoint nodupb (l : list nat) : bool :=
  match l with [] => true | x :: r => negb (existsb (Nat.eqb x) r) && nodupb r end.
Lemma nodupb_ok : forall l, nodupb l = true -> NoDup l.
Proof.
  induction l as [|x r IH]; intros H; [constructor|]. cbn in H. apply andb_true_iff in H.
  destruct H as [A B]. constructor; [|auto]. intros I. apply negb_true_iff in A.
  assert (X : existsb (Nat.eqb x) r = true) by (apply existsb_exists; exists x; split; [exact I|apply Nat.eqb_refl]).
  congruence.
Qed.

Definition separate (n : nat) (fs : list field) : bool :=
  nodupb (flat_map f_bits fs) && forallb (fun p => (p <? 8 * n)%nat) (flat_map f_bits fs).

(** * Success of packing *)
Definition packable (fs : list field) (at_ : attributes) : bool :=
  forallb (fun f => match field_value f at_ with
                    | Ok v => in_range (f_signed f) (f_bits f) v
                    | Err _ => false
                    end) fs.
Definition code (f : field) (at_ : attributes) : Z :=
  match field_value f at_ with Ok v => v mod 2 ^ width (f_bits f) | Err _ => 0 end.
Definition image (n : nat) (fs : list field) (at_ : attributes) : bytes :=
  make_bytes n (written false (map (fun f => (f_bits f, code f at_)) fs)).

Lemma field_value_err : forall f at_ e, field_value f at_ = Err e -> e = EInstruct.
Proof.
  intros f at_ e. unfold field_value. destruct (f_init f); try discriminate;
    destruct (lookup (f_name f) at_); congruence.
Qed.

Lemma field_writes_spec : forall fs at_,
  field_writes fs at_ = if packable fs at_ then Ok (map (fun f => (f_bits f, code f at_)) fs) else Err EInstruct.
Proof.
  induction fs as [|f r IH]; intros at_; [reflexivity|]. cbn [field_writes packable forallb map].
  unfold code at 1. destruct (field_value f at_) as [v|e] eqn:V; cbn [bind andb].
  - unfold encode. destruct (in_range (f_signed f) (f_bits f) v); cbn [bind andb]; [|reflexivity].
    rewrite IH. unfold packable. destruct (forallb _ r); reflexivity.
  - rewrite (field_value_err _ _ _ V). reflexivity.
Qed.

Theorem pack_fields_spec : forall n fs at_,
  pack_fields n fs at_ = if packable fs at_ then Ok (image n fs at_) else Err EInstruct.
Proof.
  intros. unfold pack_fields. rewrite field_writes_spec. destruct (packable fs at_); reflexivity.
Qed.

Lemma image_length : forall n fs at_, length (image n fs at_) = n.
Proof. intros. apply make_bytes_length. Qed.
Lemma image_ok : forall n fs at_, bytes_ok (image n fs at_).
Proof. intros. apply make_bytes_ok. Qed.

Lemma flat_map_fst_map : forall (fs : list field) (g : field -> Z),
  flat_map fst (map (fun f => (f_bits f, g f)) fs) = flat_map f_bits fs.
Proof. induction fs as [|f r IH]; intros g; [reflexivity|]. cbn. rewrite IH. reflexivity. Qed.

Lemma separate_bits : forall n fs f p, separate n fs = true -> In f fs -> In p (f_bits f) -> (p < 8 * n)%nat.
Proof.
  intros n fs f p H I J. unfold separate in H. apply andb_true_iff in H. destruct H as [_ H].
  rewrite forallb_forall in H. apply Nat.ltb_lt. apply H. apply in_flat_map. exists f. auto.
Qed.

(** Every field can be read back. *)
Theorem image_read : forall n fs at_ f, separate n fs = true -> In f fs ->
  bits_value (map (bit_at (image n fs at_)) (f_bits f)) = code f at_.
Proof.
  intros n fs at_ f S I. set (w := map (fun f => (f_bits f, code f at_)) fs).
  assert (N : NoDup (flat_map fst w)).
  { unfold w. rewrite flat_map_fst_map. unfold separate in S. apply andb_true_iff in S. apply nodupb_ok. tauto. }
  assert (W : In (f_bits f, code f at_) w) by (apply in_map_iff; exists f; auto).
  apply (bits_eq _ _ (length (f_bits f))).
  - generalize (bits_value_bounds (map (bit_at (image n fs at_)) (f_bits f))). unfold zlen.
    rewrite map_length. auto.
  - unfold code. destruct (field_value f at_) as [v|e].
    + apply Z.mod_pos_bound. apply Z.pow_pos_nonneg; unfold width, zlen; lia.
    + split; [lia|]. apply Z.pow_pos_nonneg; lia.
  - intros i Hi. rewrite bits_value_testbit.
    rewrite (nth_indep _ false (bit_at (image n fs at_) O)) by (rewrite map_length; exact Hi).
    rewrite map_nth. set (p := nth i (f_bits f) O).
    assert (P : nth_error (f_bits f) i = Some p) by (apply nth_error_nth'; exact Hi).
    unfold image. rewrite bit_at_make by (eapply separate_bits; eauto; eapply nth_error_In; eauto).
    eapply written_here; eauto.
Qed.

(** Bits outside the fields are zero. *)
Theorem image_zero : forall n fs at_ p, (p < 8 * n)%nat -> ~ In p (flat_map f_bits fs) ->
  bit_at (image n fs at_) p = false.
Proof.
  intros n fs at_ p H N. unfold image. rewrite bit_at_make by exact H. apply written_untouched.
  rewrite flat_map_fst_map. exact N.
Qed.

(** * Reading big-endian bytes and bits of a byte *)
Lemma bits_of_read : forall k lo hi buf, (hi <= 8)%nat -> (lo <= hi)%nat -> bytes_ok buf ->
  bits_value (map (bit_at buf) (bits_of k lo hi)) =
  (byte_at k buf / 2 ^ Z.of_nat lo) mod 2 ^ Z.of_nat (hi - lo).
Proof.
  intros k lo hi buf H L B. apply (bits_eq _ _ (hi - lo)).
  - generalize (bits_value_bounds (map (bit_at buf) (bits_of k lo hi))). unfold zlen, bits_of.
    rewrite !map_length, seq_length. auto.
  - apply Z.mod_pos_bound. apply Z.pow_pos_nonneg; lia.
  - intros i Hi. rewrite bits_value_testbit. rewrite Z.mod_pow2_bits_low by lia.
    rewrite Z.div_pow2_bits by lia. unfold bits_of. rewrite map_map.
    set (g := fun i => bit_at buf (8 * k + i)%nat).
    rewrite (nth_indep _ false (g O)) by (rewrite map_length, seq_length; exact Hi).
    rewrite map_nth, seq_nth by exact Hi. unfold g, bit_at.
    replace ((8 * k + (lo + i)) / 8)%nat with k by (apply Nat.div_unique with (lo + i)%nat; lia).
    replace ((8 * k + (lo + i)) mod 8)%nat with (lo + i)%nat by (apply Nat.mod_unique with k; lia).
    f_equal. lia.
Qed.

Lemma bits_value_app : forall a b, bits_value (a ++ b) = bits_value a + 2 ^ zlen a * bits_value b.
Proof.
  induction a as [|x a IH]; intros b; [change (bits_value b = 0 + 1 * bits_value b); lia|]. cbn [bits_value app]. rewrite IH. unfold zlen. cbn [length].
  rewrite Nat2Z.inj_succ, Z.pow_succ_r by lia. lia.
Qed.

Lemma byte_of_read : forall k buf, bytes_ok buf -> bits_value (map (bit_at buf) (byte_of k)) = byte_at k buf.
Proof.
  intros k buf B. unfold byte_of. rewrite bits_of_read by (auto; lia). cbn [Z.of_nat Nat.sub Z.pow].
  rewrite Z.div_1_r. apply Z.mod_small. exact (byte_at_ok k buf B).
Qed.

Lemma slice_snoc : forall a b buf, (a <= b)%nat -> (b < length buf)%nat ->
  slice a (S b) buf = slice a b buf ++ [byte_at b buf].
Proof.
  intros a b buf H L. unfold slice, byte_at. replace (S b - a)%nat with (S (b - a)) by lia.
  assert (G : forall n (l : bytes), (n < length l)%nat -> firstn (S n) l = firstn n l ++ [nth n l 0]).
  { induction n as [|n IH]; intros l X; destruct l as [|y l]; cbn in X; try lia; [reflexivity|].
    change (firstn (S (S n)) (y :: l)) with (y :: firstn (S n) l). rewrite IH by lia. reflexivity. }
  rewrite G by (rewrite skipn_length; lia). do 2 f_equal.
  clear G. revert b buf H L. induction a as [|a IH]; intros b buf H L; [cbn; f_equal; lia|].
  destruct buf as [|y buf]; [cbn in L; lia|]. destruct b as [|b]; [lia|]. cbn [skipn].
  replace (S b - S a)%nat with (b - a)%nat by lia. cbn in L. rewrite IH by lia. reflexivity.
Qed.

Lemma bytes_of_snoc : forall a b, (a <= b)%nat -> bytes_of a (S b) = byte_of b ++ bytes_of a b.
Proof.
  intros a b H. unfold bytes_of. replace (S b - a)%nat with (S (b - a)) by lia.
  cbn [seq flat_map]. f_equal; [unfold byte_of; f_equal; lia|].
  rewrite <- seq_shift. rewrite flat_map_concat_map, flat_map_concat_map, map_map. f_equal.
  apply map_ext_in. intros j J. apply in_seq in J. f_equal. lia.
Qed.

Lemma bytes_of_read : forall b a buf, (a <= b)%nat -> (b <= length buf)%nat -> bytes_ok buf ->
  bits_value (map (bit_at buf) (bytes_of a b)) = be_val (slice a b buf).
Proof.
  induction b as [|b IH]; intros a buf H L B.
  - replace a with O by lia. reflexivity.
  - destruct (Nat.eq_dec a (S b)) as [->|N].
    + unfold bytes_of, slice. rewrite !Nat.sub_diag. reflexivity.
    + rewrite bytes_of_snoc, slice_snoc by lia. rewrite map_app, bits_value_app, be_val_app1.
      rewrite byte_of_read by exact B. rewrite IH by (auto; lia).
      unfold zlen. rewrite map_length. change (length (byte_of b)) with 8%nat.
      change (2 ^ Z.of_nat 8) with 256. lia.
Qed.
