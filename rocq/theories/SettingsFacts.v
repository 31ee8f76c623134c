(** Proofs for the properties about assigned attributes. *)
From Coq Require Import String ZArith List Bool Lia.
From Verif Require Import Base BaseFacts OsCommon Instruct InstructFacts Command CdbBlock CdbPrimary CdbLemmas
  SpecDevice SpecCdb CdbAllFacts SpecSettings.
Import ListNotations.
Local Open Scope string_scope.
Local Open Scope list_scope.
Local Open Scope Z_scope.

(** * A big-endian number bit by bit *)

(** The position in a string of [n] bytes of bit [j] of the number. *)
Definition pos (n j : nat) : nat := (8 * (n - 1 - j / 8) + j mod 8)%nat.

Lemma bit_at_app1 : forall (l r : bytes) p, (p < 8 * length l)%nat -> bit_at (l ++ r) p = bit_at l p.
Proof.
  intros l r p H. unfold bit_at, byte_at. rewrite app_nth1; [reflexivity|].
  apply Nat.div_lt_upper_bound; lia.
Qed.

Lemma be_bit : forall (l : bytes) j, bytes_ok l -> (j < 8 * length l)%nat ->
  Z.testbit (be_val l) (Z.of_nat j) = bit_at l (pos (length l) j).
Proof.
  intros l. induction l as [|b l IH] using rev_ind; intros j O H; [cbn in H; lia|].
  rewrite be_val_app1. rewrite app_length in *. cbn [length] in *.
  apply Forall_app in O. destruct O as [O1 O2]. inversion O2 as [|? ? [B1 B2] _]; subst.
  destruct (Nat.lt_ge_cases j 8) as [L|L].
  - replace (pos (length l + 1) j) with (8 * length l + j)%nat.
    2:{ unfold pos. rewrite Nat.div_small, Nat.mod_small by lia. lia. }
    unfold bit_at, byte_at.
    replace ((8 * length l + j) / 8)%nat with (length l) by (apply Nat.div_unique with j; lia).
    replace ((8 * length l + j) mod 8)%nat with j by (apply Nat.mod_unique with (length l); lia).
    rewrite app_nth2, Nat.sub_diag by lia. cbn [nth].
    rewrite <- (Z.mod_pow2_bits_low (be_val l * 256 + b) 8) by lia.
    replace ((be_val l * 256 + b) mod 2 ^ 8) with b; [reflexivity|].
    change (2 ^ 8) with 256. rewrite Z.add_comm, Z_mod_plus_full. symmetry. apply Z.mod_small. lia.
  - replace (pos (length l + 1) j) with (pos (length l) (j - 8)).
    2:{ unfold pos. replace j with ((j - 8) + 1 * 8)%nat at 3 4 by lia.
        rewrite Nat.div_add, Nat.mod_add by lia. lia. }
    assert (D : (j / 8 < length l + 1)%nat) by (apply Nat.div_lt_upper_bound; lia).
    assert (P : (pos (length l) (j - 8) < 8 * length l)%nat).
    { unfold pos. assert (M : ((j - 8) mod 8 < 8)%nat) by (apply Nat.mod_upper_bound; lia). lia. }
    rewrite bit_at_app1 by exact P. rewrite <- IH by (auto; lia).
    replace (Z.of_nat j) with (Z.of_nat (j - 8) + 8) by lia.
    rewrite <- Z.div_pow2_bits by lia. f_equal. change (2 ^ 8) with 256.
    rewrite Z.div_add_l by lia. rewrite Z.div_small by lia. lia.
Qed.

Lemma be_bit_high : forall (l : bytes) j, bytes_ok l -> (8 * length l <= j)%nat ->
  Z.testbit (be_val l) (Z.of_nat j) = false.
Proof.
  intros l j O H. apply (testbit_high _ (8 * zlen l)); [|unfold zlen; lia].
  pose proof (be_val_bounds l O) as B. rewrite Z.pow_mul_r by (unfold zlen; lia). exact B.
Qed.

Lemma replaced_split : forall off w v n,
  replaced off w v n =
  (n / 2 ^ Z.of_nat (off + w)) * 2 ^ Z.of_nat (off + w) + (v * 2 ^ Z.of_nat off + n mod 2 ^ Z.of_nat off).
Proof.
  intros off w v n. unfold replaced. rewrite Nat2Z.inj_add, Z.pow_add_r by lia.
  set (A := 2 ^ Z.of_nat off). set (B := 2 ^ Z.of_nat w).
  assert (HA : 0 < A) by (apply Z.pow_pos_nonneg; lia). assert (HB : 0 < B) by (apply Z.pow_pos_nonneg; lia).
  rewrite <- Z.div_div by lia.
  pose proof (Z.div_mod n A ltac:(lia)) as E1. pose proof (Z.div_mod (n / A) B ltac:(lia)) as E2. nia.
Qed.

Lemma replaced_bit : forall off w v n j, 0 <= v < 2 ^ Z.of_nat w ->
  Z.testbit (replaced off w v n) (Z.of_nat j) =
  if ((off <=? j) && (j <? off + w))%nat then Z.testbit v (Z.of_nat (j - off)) else Z.testbit n (Z.of_nat j).
Proof.
  intros off w v n j V. rewrite replaced_split.
  set (low := v * 2 ^ Z.of_nat off + n mod 2 ^ Z.of_nat off).
  assert (HA : 0 < 2 ^ Z.of_nat off) by (apply Z.pow_pos_nonneg; lia).
  assert (M : 0 <= n mod 2 ^ Z.of_nat off < 2 ^ Z.of_nat off) by (apply Z.mod_pos_bound; exact HA).
  assert (HL : 0 <= low < 2 ^ Z.of_nat (off + w)).
  { unfold low. rewrite Nat2Z.inj_add, Z.pow_add_r by lia. nia. }
  destruct (Nat.lt_ge_cases j (off + w)) as [L|L].
  - rewrite <- (Z.mod_pow2_bits_low _ (Z.of_nat (off + w))) by lia.
    rewrite Z.add_comm, Z_mod_plus_full, Z.mod_small by exact HL. unfold low.
    destruct (Nat.lt_ge_cases j off) as [K|K].
    + replace (off <=? j)%nat with false by (symmetry; apply Nat.leb_gt; exact K). cbn [andb].
      rewrite <- (Z.mod_pow2_bits_low _ (Z.of_nat off)) by lia.
      rewrite Z.add_comm, Z_mod_plus_full, Z.mod_mod by lia. apply Z.mod_pow2_bits_low. lia.
    + replace (off <=? j)%nat with true by (symmetry; apply Nat.leb_le; exact K).
      replace (j <? off + w)%nat with true by (symmetry; apply Nat.ltb_lt; exact L). cbn [andb].
      replace (Z.of_nat j) with (Z.of_nat (j - off) + Z.of_nat off) by lia.
      rewrite <- Z.div_pow2_bits by lia. f_equal.
      rewrite Z.div_add_l by lia. rewrite (Z.div_small (n mod _)) by exact M. lia.
  - replace (j <? off + w)%nat with false by (symmetry; apply Nat.ltb_ge; exact L). rewrite andb_false_r.
    replace (Z.of_nat j) with (Z.of_nat (j - (off + w)) + Z.of_nat (off + w)) by lia.
    rewrite <- !Z.div_pow2_bits by lia. f_equal.
    rewrite Z.div_add_l by (apply Z.pow_nonzero; lia). rewrite (Z.div_small low) by exact HL. lia.
Qed.

(** * One field of a table set anew *)

Definition others (f : field) (fs : list field) : Prop := forall g, In g fs -> g = f \/ f_name g <> f_name f.

Lemma field_value_ext : forall f a b, lookup (f_name f) a = lookup (f_name f) b -> field_value f a = field_value f b.
Proof. intros f a b H. unfold field_value. rewrite H. reflexivity. Qed.

Lemma lookup_other : forall n m (v : Z) a, n <> m -> lookup n ((m, v) :: a) = lookup n a.
Proof. intros n m v a H. cbn. destruct (String.eqb n m) eqn:E; [apply String.eqb_eq in E; congruence|reflexivity]. Qed.
Lemma lookup_this : forall n (v : Z) a, lookup n ((n, v) :: a) = Some v.
Proof. intros. cbn. rewrite String.eqb_refl. reflexivity. Qed.

Definition settable (f : field) : bool := match f_init f with Fixed _ => false | _ => true end.

Lemma value_set : forall f v a, settable f = true -> field_value f ((f_name f, v) :: a) = Ok v.
Proof.
  intros f v a S. unfold field_value, settable in *. rewrite lookup_this. destruct (f_init f); congruence.
Qed.
Lemma value_kept : forall f x v a, f_name f <> x -> field_value f ((x, v) :: a) = field_value f a.
Proof. intros. apply field_value_ext. apply lookup_other. assumption. Qed.

Definition unsigned (f : field) : bool := negb (f_signed f && (Z.eqb (width (f_bits f) mod 8) 0)).

Lemma packable_set : forall fs f v a, packable fs a = true -> In f fs -> others f fs -> settable f = true ->
  unsigned f = true -> packable fs ((f_name f, v) :: a) = ((0 <=? v) && (v <? 2 ^ width (f_bits f))).
Proof.
  intros fs f v a P I O S U.
  assert (R : in_range (f_signed f) (f_bits f) v = ((0 <=? v) && (v <? 2 ^ width (f_bits f)))).
  { unfold in_range, unsigned in *. apply negb_true_iff in U. rewrite U. reflexivity. }
  rewrite <- R. unfold packable in *. rewrite forallb_forall in P.
  destruct (in_range (f_signed f) (f_bits f) v) eqn:E.
  - apply forallb_forall. intros g G. destruct (O g G) as [->|N].
    + rewrite value_set by exact S. exact E.
    + rewrite value_kept by exact N. apply P. exact G.
  - apply not_true_iff_false. intros H. rewrite forallb_forall in H. specialize (H f I).
    rewrite value_set in H by exact S. congruence.
Qed.

Lemma written_ext : forall (fs : list field) (g h : field -> Z) p acc,
  (forall f, In f fs -> In p (f_bits f) -> g f = h f) ->
  written acc (map (fun f => (f_bits f, g f)) fs) p = written acc (map (fun f => (f_bits f, h f)) fs) p.
Proof.
  induction fs as [|f r IH]; intros g h p acc H; [reflexivity|]. cbn [map written].
  destruct (index_of p (f_bits f)) as [i|] eqn:E.
  - rewrite (H f); [|left; reflexivity|apply index_of_in in E; eapply nth_error_In; exact E].
    apply IH. intros x X. apply H. right. exact X.
  - apply IH. intros x X. apply H. right. exact X.
Qed.

(** The positions of the bits of a place in a CDB of [n] bytes. *)
Definition offset (n : nat) (p : place) : nat := (8 * (n - 1 - p_byte p) + p_low p)%nat.
Definition bits_at (n : nat) (p : place) : list nat := map (pos n) (seq (offset n p) (p_width p)).

Lemma pos_inv : forall n j, (j < 8 * n)%nat -> (pos n j < 8 * n)%nat /\ pos n (pos n j) = j.
Proof.
  intros n j H. assert (M : (j mod 8 < 8)%nat) by (apply Nat.mod_upper_bound; lia).
  assert (D : (j / 8 < n)%nat) by (apply Nat.div_lt_upper_bound; lia).
  pose proof (Nat.div_mod j 8 ltac:(lia)) as E.
  unfold pos. split; [lia|].
  replace ((8 * (n - 1 - j / 8) + j mod 8) / 8)%nat with (n - 1 - j / 8)%nat
    by (apply Nat.div_unique with (j mod 8)%nat; lia).
  replace ((8 * (n - 1 - j / 8) + j mod 8) mod 8)%nat with (j mod 8)%nat
    by (apply Nat.mod_unique with (n - 1 - j / 8)%nat; lia).
  lia.
Qed.

Lemma image_put : forall n fs f p v a, separate n fs = true -> In f fs -> others f fs -> settable f = true ->
  f_bits f = bits_at n p -> (offset n p + p_width p <= 8 * n)%nat -> 0 <= v < 2 ^ Z.of_nat (p_width p) ->
  image n fs ((f_name f, v) :: a) = put p v (image n fs a).
Proof.
  intros n fs f p v a SEP I O S B L V. unfold put. rewrite image_length. fold (offset n p).
  rewrite <- (be_bytes_be_val (image n fs ((f_name f, v) :: a))) by apply image_ok.
  rewrite image_length. f_equal. apply Z.bits_inj'. intros j J.
  replace j with (Z.of_nat (Z.to_nat j)) by lia. set (k := Z.to_nat j). clearbody k. clear j J.
  rewrite replaced_bit by exact V.
  destruct (Nat.lt_ge_cases k (8 * n)) as [H|H].
  2:{ rewrite be_bit_high by (rewrite ?image_length; auto using image_ok).
      rewrite be_bit_high by (rewrite ?image_length; auto using image_ok).
      replace (k <? offset n p + p_width p)%nat with false by (symmetry; apply Nat.ltb_ge; lia).
      rewrite andb_false_r. reflexivity. }
  rewrite be_bit by (rewrite ?image_length; auto using image_ok).
  rewrite be_bit by (rewrite ?image_length; auto using image_ok). rewrite !image_length.
  destruct (pos_inv n k H) as [P1 P2].
  unfold image. rewrite !bit_at_make by exact P1.
  destruct ((offset n p <=? k) && (k <? offset n p + p_width p))%nat eqn:E.
  - apply andb_true_iff in E. destruct E as [E1 E2]. apply Nat.leb_le in E1. apply Nat.ltb_lt in E2.
    assert (X : nth_error (f_bits f) (k - offset n p) = Some (pos n k)).
    { rewrite B. unfold bits_at. apply map_nth_error.
      rewrite nth_error_nth' with (d := 0%nat) by (rewrite seq_length; lia). rewrite seq_nth by lia. f_equal. lia. }
    erewrite (written_here _ _ (f_bits f) (code f ((f_name f, v) :: a)) (k - offset n p) (pos n k)).
    + unfold code. rewrite value_set by exact S. rewrite Z.mod_small; [reflexivity|].
      unfold width, zlen. rewrite B. unfold bits_at. rewrite map_length, seq_length. exact V.
    + rewrite flat_map_fst_map. unfold separate in SEP. apply andb_true_iff in SEP. apply nodupb_ok. tauto.
    + apply in_map_iff. exists f. auto.
    + exact X.
  - apply written_ext. intros g G Q. destruct (O g G) as [->|N].
    + exfalso. rewrite B in Q. unfold bits_at in Q. apply in_map_iff in Q. destruct Q as [i [Q1 Q2]].
      apply in_seq in Q2. assert (X : i = k).
      { destruct (pos_inv n i ltac:(lia)) as [_ X]. rewrite <- X, Q1. exact P2. }
      subst i. rewrite (proj2 (Nat.leb_le _ _)) in E by lia. rewrite (proj2 (Nat.ltb_lt _ _)) in E by lia.
      discriminate.
    + unfold code. rewrite value_kept by exact N. reflexivity.
Qed.

(** * The tables of the command classes *)

Definition struct_table (l : list item) : nat * list field := (struct_size l, struct_fields 0 l).
Definition buffer_table (l : list field) : nat * list field := (buffer_size l, l).

Definition table (c : command) : nat * list field :=
  match c with
  | Read6 _ _ _ => struct_table read6_fields
  | Read10 _ _ _ _ => struct_table read10_fields
  | Read12 _ _ _ _ => struct_table read12_fields
  | Read16 _ _ _ _ => struct_table read16_fields
  | Write6 _ _ _ => struct_table write6_fields
  | Write10 _ _ _ _ => struct_table write10_fields
  | Write12 _ _ _ _ => struct_table write12_fields
  | Write16 _ _ _ _ => struct_table write16_fields
  | WriteSame10 _ _ _ _ _ => struct_table write_same10_fields
  | WriteSame16 _ _ _ _ _ => struct_table write_same16_fields
  | CompareAndWrite _ _ _ _ _ => struct_table compare_and_write_fields
  | Unmap _ _ => struct_table unmap_fields
  | ReadCapacity10 _ _ => struct_table read_capacity10_fields
  | ReadCapacity16 _ _ => struct_table read_capacity16_fields
  | TestUnitReady => struct_table tur_fields
  | ReportLuns _ _ _ => struct_table report_luns_fields
  | Rtpg _ _ => struct_table rtpg_fields
  | LogSense _ _ _ _ => buffer_table log_sense_fields
  | ReceiveCopy _ => buffer_table receive_copy_fields
  | ReceiveDiagnostic _ _ _ => buffer_table receive_diagnostic_fields
  | Inquiry _ _ _ _ => struct_table inquiry_fields
  | Reserve6 => buffer_table reserve6_fields
  | Release6 => buffer_table release6_fields
  | Reserve10 _ => buffer_table reserve10_fields
  | Release10 _ => buffer_table release10_fields
  | PrIn _ _ => buffer_table pr_in_fields
  | PrOutBasic _ _ _ _ _ | PrOutMove _ _ _ _ _ => buffer_table pr_out_fields
  end.

(** The checks of CompareAndWriteCommand.execute. *)
Definition checks (c : command) (a : attributes) : result unit :=
  match c with
  | CompareAndWrite _ _ _ _ _ =>
      do _ <- assert_ (attr "logical_block_address" a <? 2 ^ 64);
      assert_ (attr "number_of_logical_blocks" a <? 2 ^ 8)
  | _ => Ok tt
  end.

Definition expects (c : command) (a : attributes) : Z :=
  match c with
  | Read6 _ _ bs => let n := bs * attr "transfer_length" a in if n =? 0 then 256 * 512 else n
  | Read10 _ _ bs _ | Read12 _ _ bs _ | Read16 _ _ bs _ => bs * attr "transfer_length" a
  | TestUnitReady => 0
  | ReadCapacity10 _ _ => 8
  | _ => attr "allocation_length" a
  end.

Ltac binds H :=
  repeat match type of H with
  | bind ?x _ = Ok _ => let E := fresh "E" in destruct x eqn:E; cbn [bind] in H; [|discriminate H]
  end.

Lemma constructed_datagram : forall c o, constructed c = Ok o ->
  forall a, o_datagram o a = (do _ <- checks c a; pack_fields (fst (table c)) (snd (table c)) a).
Proof.
  intros c o H a.
  destruct c; cbn [constructed] in H;
    unfold with_settings, read6, read10, read12, read16, write6, write10, write12, write16, write_same10, write_same16,
      compare_and_write, unmap, read_capacity10, read_capacity16, test_unit_ready, report_luns, rtpg, log_sense,
      receive_copy, receive_diagnostic, inquiry, reserve6, release6, reserve10, release10, pr_in, pr_out in H;
    cbv zeta in H;
    try match type of H with context [if 0 <? ?id then _ else _] =>
          destruct (0 <? id); [destruct (id <? 255)|] end;
    repeat match type of H with
    | bind (bind _ _) _ = Ok _ => match type of H with bind ?x _ = Ok _ =>
        let E := fresh "E" in destruct x eqn:E; cbn [bind] in H; [binds E|discriminate H] end
    | bind ?x _ = Ok _ => let E := fresh "E" in destruct x eqn:E; cbn [bind] in H; [|discriminate H]
    end;
    repeat match goal with E : Ok (CdbObject _ _ _ _) = Ok _ |- _ => injection E as <- end;
    try (injection H as <-); cbn [assigned o_datagram checks bind table fst snd struct_table buffer_table];
    try reflexivity.
  change (Z.pow_pos 2 64) with (2 ^ 64). change (Z.pow_pos 2 8) with (2 ^ 8). unfold pack_struct.
  destruct (assert_ (attr "logical_block_address" a <? 2 ^ 64)); cbn [bind]; [|reflexivity].
  destruct (assert_ (attr "number_of_logical_blocks" a <? 2 ^ 8)); reflexivity.
Qed.

Definition reads (c : command) : bool :=
  match c with
  | Read6 _ _ _ | Read10 _ _ _ _ | Read12 _ _ _ _ | Read16 _ _ _ _ | ReadCapacity10 _ _ | ReadCapacity16 _ _
  | TestUnitReady | ReportLuns _ _ _ | Rtpg _ _ | LogSense _ _ _ _ | ReceiveCopy _ | ReceiveDiagnostic _ _ _
  | Inquiry _ _ _ _ | PrIn _ _ => true
  | _ => false
  end.

Lemma constructed_request : forall c o, constructed c = Ok o ->
  if reads c then forall a cdb, o_request o a cdb = ReadCmd cdb (expects c a)
  else exists data, forall a cdb, o_request o a cdb = WriteCmd cdb data.
Proof.
  intros c o H.
  destruct c; cbn [constructed] in H;
    unfold with_settings, read6, read10, read12, read16, write6, write10, write12, write16, write_same10, write_same16,
      compare_and_write, unmap, read_capacity10, read_capacity16, test_unit_ready, report_luns, rtpg, log_sense,
      receive_copy, receive_diagnostic, inquiry, reserve6, release6, reserve10, release10, pr_in, pr_out in H;
    cbv zeta in H;
    try match type of H with context [if 0 <? ?id then _ else _] =>
          destruct (0 <? id); [destruct (id <? 255)|] end;
    repeat match type of H with
    | bind (bind _ _) _ = Ok _ => match type of H with bind ?x _ = Ok _ =>
        let E := fresh "E" in destruct x eqn:E; cbn [bind] in H; [binds E|discriminate H] end
    | bind ?x _ = Ok _ => let E := fresh "E" in destruct x eqn:E; cbn [bind] in H; [|discriminate H]
    end;
    repeat match goal with E : Ok (CdbObject _ _ _ _) = Ok _ |- _ => injection E as <- end;
    try (injection H as <-); cbn [assigned o_request reads];
    try (intros a' cdb'; reflexivity); try (eexists; intros a' cdb'; reflexivity).
Qed.

(** * Checking the tables against the standard's places *)

Fixpoint nats_eqb (a b : list nat) : bool :=
  match a, b with
  | [], [] => true
  | x :: r, y :: s => (x =? y)%nat && nats_eqb r s
  | _, _ => false
  end.
Lemma nats_eqb_ok : forall a b, nats_eqb a b = true -> a = b.
Proof.
  induction a as [|x a IH]; intros [|y b] H; try discriminate; [reflexivity|]. cbn in H.
  apply andb_true_iff in H. destruct H as [H1 H2]. apply Nat.eqb_eq in H1. subst. f_equal. auto.
Qed.

Definition is_place (n : nat) (fs : list field) (e : string * place) : bool :=
  match find (fun f => String.eqb (f_name f) (fst e)) fs with
  | None => false
  | Some f => settable f && unsigned f && nats_eqb (f_bits f) (bits_at n (snd e))
              && (offset n (snd e) + p_width (snd e) <=? 8 * n)%nat
  end.
Fixpoint distinct (l : list string) : bool :=
  match l with [] => true | x :: r => negb (existsb (String.eqb x) r) && distinct r end.
Definition listed (l : list (string * place)) (f : field) : bool :=
  negb (settable f) || existsb (fun e => String.eqb (fst e) (f_name f)) l.

Definition standard (n : nat) (fs : list field) (l : list (string * place)) : bool :=
  separate n fs && distinct (map f_name fs) && forallb (is_place n fs) l && forallb (listed l) fs.

Lemma all_standard : forall c, standard (fst (table c)) (snd (table c)) (places c) = true.
Proof. intros c. destruct c; vm_compute; reflexivity. Qed.

Lemma distinct_others : forall fs f, distinct (map f_name fs) = true -> In f fs -> others f fs.
Proof.
  assert (N : forall x l, existsb (String.eqb x) l = false -> ~ In x l).
  { intros x l E I. assert (X : existsb (String.eqb x) l = true)
      by (apply existsb_exists; exists x; split; [exact I|apply String.eqb_refl]). congruence. }
  induction fs as [|h r IH]; intros f D I g G; [contradiction|]. cbn in D. apply andb_true_iff in D.
  destruct D as [D1 D2]. apply negb_true_iff in D1. apply N in D1.
  destruct I as [<-|I]; destruct G as [<-|G].
  - left. reflexivity.
  - right. intros E. apply D1. rewrite <- E. apply in_map. exact G.
  - right. intros E. apply D1. rewrite E. apply in_map. exact I.
  - apply IH; assumption.
Qed.

Lemma place_field : forall c name p, In (name, p) (places c) ->
  let n := fst (table c) in let fs := snd (table c) in
  exists f, f_name f = name /\ In f fs /\ others f fs /\ settable f = true /\ unsigned f = true /\
    f_bits f = bits_at n p /\ (offset n p + p_width p <= 8 * n)%nat /\ separate n fs = true.
Proof.
  intros c name p H n fs. pose proof (all_standard c) as A. fold n fs in A. unfold standard in A.
  apply andb_true_iff in A. destruct A as [A _]. apply andb_true_iff in A. destruct A as [A A3].
  apply andb_true_iff in A. destruct A as [A1 A2]. rewrite forallb_forall in A3.
  specialize (A3 _ H). unfold is_place in A3. cbn [fst snd] in A3.
  destruct (find _ fs) as [f|] eqn:F; [|discriminate]. apply find_some in F. destruct F as [F1 F2].
  apply String.eqb_eq in F2. apply andb_true_iff in A3. destruct A3 as [A3 A7].
  apply andb_true_iff in A3. destruct A3 as [A3 A6]. apply andb_true_iff in A3. destruct A3 as [A3 A5].
  exists f. apply nats_eqb_ok in A6. apply Nat.leb_le in A7.
  repeat split; auto. apply distinct_others; assumption.
Qed.

Lemma width_bits : forall n p f, f_bits f = bits_at n p -> width (f_bits f) = Z.of_nat (p_width p).
Proof. intros n p f ->. unfold width, zlen, bits_at. rewrite map_length, seq_length. reflexivity. Qed.

(** * Setting an attribute *)

Lemma request_with : forall c o kw, constructed c = Ok o ->
  request (assigned kw o) =
  (do _ <- checks c (kw ++ o_attrs o);
   do cdb <- pack_fields (fst (table c)) (snd (table c)) (kw ++ o_attrs o);
   Ok (o_request o (kw ++ o_attrs o) cdb)).
Proof.
  intros c o kw H. unfold request. cbn [assigned o_attrs o_datagram o_request].
  rewrite (constructed_datagram c o H). destruct (checks c (kw ++ o_attrs o)); reflexivity.
Qed.

Lemma attr_set : forall x v a, attr x ((x, v) :: a) = v.
Proof. intros. unfold attr. rewrite lookup_this. reflexivity. Qed.
Lemma attr_kept : forall x y v a, x <> y -> attr x ((y, v) :: a) = attr x a.
Proof. intros. unfold attr. rewrite lookup_other by assumption. reflexivity. Qed.
Lemma attr_cons : forall x y v a, attr x ((y, v) :: a) = if String.eqb y x then v else attr x a.
Proof.
  intros x y v a. destruct (String.eqb y x) eqn:E.
  - apply String.eqb_eq in E. subst. apply attr_set.
  - apply String.eqb_neq in E. apply attr_kept. congruence.
Qed.

Lemma expects_set : forall c name p v a, In (name, p) (places c) -> reads c = true ->
  expects c ((name, v) :: a) = length_after c name v (expects c a).
Proof.
  intros c name p v a I R. destruct c; try discriminate R; cbn [expects length_after]; cbv zeta; rewrite ?attr_cons;
    try (destruct (String.eqb name "transfer_length"); reflexivity);
    try (destruct (String.eqb name "allocation_length"); reflexivity).
  - cbn in I. repeat match type of I with _ \/ _ => destruct I as [I|I] end; try contradiction;
      inversion I; subst; reflexivity.
  - cbn in I. repeat match type of I with _ \/ _ => destruct I as [I|I] end; try contradiction;
      inversion I; subst; reflexivity.
Qed.

Lemma checks_ok : forall c a u, checks c a = Ok u -> checks c a = Ok tt.
Proof. intros c a []. auto. Qed.

Lemma checks_set : forall c name p v a, In (name, p) (places c) -> 0 <= v < 2 ^ Z.of_nat (p_width p) ->
  checks c a = Ok tt -> checks c ((name, v) :: a) = Ok tt.
Proof.
  intros c name p v a I V H. destruct c; try reflexivity. cbn [checks] in *. rewrite !attr_cons.
  destruct (attr "logical_block_address" a <? 2 ^ 64) eqn:E1; cbn [assert_ bind] in H; [|discriminate].
  destruct (attr "number_of_logical_blocks" a <? 2 ^ 8) eqn:E2; [|discriminate].
  cbn in I. repeat match type of I with _ \/ _ => destruct I as [I|I] end; try contradiction;
    injection I as <- <-; cbn [String.eqb Ascii.eqb Bool.eqb p_width] in *; cbn [p_width] in V;
    try (rewrite E1; cbn [assert_ bind]; rewrite E2; reflexivity).
  - change (Z.of_nat 64) with 64 in V. rewrite (proj2 (Z.ltb_lt v (2 ^ 64))) by lia.
    cbn [assert_ bind]. rewrite E2. reflexivity.
  - change (Z.of_nat 8) with 8 in V. rewrite E1. cbn [assert_ bind].
    rewrite (proj2 (Z.ltb_lt v (2 ^ 8))) by lia. reflexivity.
Qed.

Theorem set_one : forall c kw r name p v, issued_with kw c = Ok r -> In (name, p) (places c) ->
  0 <= v < 2 ^ Z.of_nat (p_width p) ->
  issued_with ((name, v) :: kw) c = Ok (changed c name p v r).
Proof.
  intros c kw r name p v H I V. unfold issued_with in *.
  destruct (constructed c) as [o|e] eqn:C; cbn [bind] in *; [|discriminate].
  rewrite (request_with c o kw C) in H. rewrite (request_with c o _ C). cbn [app]. set (a := (kw ++ o_attrs o)%list) in *.
  destruct (checks c a) as [u|] eqn:K; cbn [bind] in H; [|discriminate].
  rewrite (checks_set c name p v a I V) by (destruct u; exact K). cbn [bind].
  rewrite pack_fields_spec in H. destruct (packable (snd (table c)) a) eqn:P; [|discriminate]. cbn [bind] in H.
  injection H as <-.
  destruct (place_field c name p I) as [f [F1 [F2 [F3 [F4 [F5 [F6 [F7 F8]]]]]]]]. subst name.
  rewrite pack_fields_spec, (packable_set _ f v a P F2 F3 F4 F5). rewrite (width_bits _ _ _ F6).
  rewrite (proj2 (Z.leb_le 0 v)) by lia. rewrite (proj2 (Z.ltb_lt v _)) by lia. cbn [andb bind].
  rewrite (image_put _ _ f p v a F8 F2 F3 F4 F6 F7 V). f_equal.
  pose proof (constructed_request c o C) as Q. destruct (reads c) eqn:R.
  - rewrite !Q. cbn [changed]. rewrite (expects_set c _ p v a I R). reflexivity.
  - destruct Q as [data Q]. rewrite !Q. reflexivity.
Qed.

Theorem set_refused : forall c kw r name p v, issued_with kw c = Ok r -> In (name, p) (places c) ->
  ~ 0 <= v < 2 ^ Z.of_nat (p_width p) ->
  issued_with ((name, v) :: kw) c = Err EInstruct \/ issued_with ((name, v) :: kw) c = Err EAssertion.
Proof.
  intros c kw r name p v H I V. unfold issued_with in *.
  destruct (constructed c) as [o|e] eqn:C; cbn [bind] in *; [|discriminate].
  rewrite (request_with c o kw C) in H. rewrite (request_with c o _ C). cbn [app]. set (a := (kw ++ o_attrs o)%list) in *.
  destruct (checks c a) as [u|] eqn:K; cbn [bind] in H; [|discriminate].
  rewrite pack_fields_spec in H. destruct (packable (snd (table c)) a) eqn:P; [|discriminate].
  destruct (checks c ((name, v) :: a)) as [w|e] eqn:K2; cbn [bind].
  - left. destruct (place_field c name p I) as [f [F1 [F2 [F3 [F4 [F5 [F6 [F7 F8]]]]]]]]. subst name.
    rewrite pack_fields_spec, (packable_set _ f v a P F2 F3 F4 F5). rewrite (width_bits _ _ _ F6).
    destruct ((0 <=? v) && (v <? 2 ^ Z.of_nat (p_width p))) eqn:E; [|reflexivity].
    exfalso. apply V. apply andb_true_iff in E. destruct E as [E1 E2]. apply Z.leb_le in E1. apply Z.ltb_lt in E2. lia.
  - right. destruct c; try discriminate K2. cbn [checks] in K2.
    destruct (_ <? 2 ^ 64); cbn [assert_ bind] in K2; [|congruence]. destruct (_ <? 2 ^ 8); cbn [assert_] in K2; congruence.
Qed.

(** * Only the listed attributes matter, and only their latest values *)

Lemma listed_fields : forall c f, In f (snd (table c)) -> settable f = true -> In (f_name f) (map fst (places c)).
Proof.
  intros c f F S. pose proof (all_standard c) as A. unfold standard in A. apply andb_true_iff in A.
  destruct A as [_ A]. rewrite forallb_forall in A. specialize (A f F). unfold listed in A. rewrite S in A.
  cbn [negb orb] in A. apply existsb_exists in A. destruct A as [e [E1 E2]]. apply String.eqb_eq in E2.
  rewrite <- E2. apply in_map. exact E1.
Qed.

Lemma pack_ext : forall c a b, (forall x, In x (map fst (places c)) -> lookup x a = lookup x b) ->
  pack_fields (fst (table c)) (snd (table c)) a = pack_fields (fst (table c)) (snd (table c)) b.
Proof.
  intros c a b H. unfold pack_fields. f_equal.
  assert (G : forall f, In f (snd (table c)) -> field_value f a = field_value f b).
  { intros f F. destruct (settable f) eqn:S.
    - apply field_value_ext. apply H. apply listed_fields; assumption.
    - unfold field_value, settable in *. destruct (f_init f); try discriminate. reflexivity. }
  revert G. generalize (snd (table c)). induction l as [|f l IH]; intros G; [reflexivity|]. cbn [field_writes].
  rewrite (G f) by (left; reflexivity). rewrite IH by (intros; apply G; right; assumption). reflexivity.
Qed.

Lemma attr_ext : forall x a b, lookup x a = lookup x b -> attr x a = attr x b.
Proof. intros x a b H. unfold attr. rewrite H. reflexivity. Qed.

Lemma checks_ext : forall c a b, (forall x, In x (map fst (places c)) -> lookup x a = lookup x b) ->
  checks c a = checks c b.
Proof.
  intros c a b H. destruct c; try reflexivity. cbn [checks].
  rewrite (attr_ext "logical_block_address" a b) by (apply H; cbn; tauto).
  rewrite (attr_ext "number_of_logical_blocks" a b) by (apply H; cbn; tauto). reflexivity.
Qed.

Lemma expects_ext : forall c a b, (forall x, In x (map fst (places c)) -> lookup x a = lookup x b) ->
  reads c = true -> expects c a = expects c b.
Proof.
  intros c a b H R. destruct c; try discriminate R; try reflexivity; cbn [expects];
    try (rewrite (attr_ext "transfer_length" a b) by (apply H; cbn; tauto); reflexivity);
    try (rewrite (attr_ext "allocation_length" a b) by (apply H; cbn; tauto); reflexivity).
Qed.

Theorem same_settings : forall c kw kw', (forall x, In x (map fst (places c)) -> lookup x kw = lookup x kw') ->
  issued_with kw c = issued_with kw' c.
Proof.
  intros c kw kw' H. unfold issued_with. destruct (constructed c) as [o|e] eqn:C; cbn [bind]; [|reflexivity].
  rewrite !(request_with c o _ C).
  assert (L : forall x, In x (map fst (places c)) -> lookup x (kw ++ o_attrs o) = lookup x (kw' ++ o_attrs o)).
  { intros x X. rewrite !lookup_app. rewrite (H x X). reflexivity. }
  rewrite (checks_ext c _ _ L), (pack_ext c _ _ L).
  destruct (checks c (kw' ++ o_attrs o)); cbn [bind]; [|reflexivity].
  destruct (pack_fields _ _ (kw' ++ o_attrs o)); cbn [bind]; [|reflexivity]. f_equal.
  pose proof (constructed_request c o C) as Q. destruct (reads c) eqn:R.
  - rewrite !Q. rewrite (expects_ext c _ _ L R). reflexivity.
  - destruct Q as [data Q]. rewrite !Q. reflexivity.
Qed.

Theorem set_ignored : forall c kw name v, ~ In name (map fst (places c)) ->
  issued_with ((name, v) :: kw) c = issued_with kw c.
Proof.
  intros c kw name v H. apply same_settings. intros x X. apply lookup_other. congruence.
Qed.

Theorem set_nothing : forall c, issued_with [] c = issued c.
Proof.
  intros c. unfold issued_with, issued. destruct (constructed c) as [o|e]; reflexivity.
Qed.

(** * The control byte *)

Lemma replaced_low : forall lo w v N b, (lo + w <= 8)%nat ->
  replaced lo w v (N * 256 + b) = N * 256 + replaced lo w v b.
Proof.
  intros lo w v N b H. unfold replaced.
  replace (((N * 256 + b) / 2 ^ Z.of_nat lo) mod 2 ^ Z.of_nat w)
    with ((b / 2 ^ Z.of_nat lo) mod 2 ^ Z.of_nat w); [lia|].
  set (A := 2 ^ Z.of_nat lo). set (B := 2 ^ Z.of_nat w). set (D := 2 ^ Z.of_nat (8 - lo - w)).
  assert (E : 256 = D * B * A).
  { unfold A, B, D. rewrite <- !Z.pow_add_r by lia. change 256 with (2 ^ 8). f_equal. lia. }
  assert (HA : 0 < A) by (apply Z.pow_pos_nonneg; lia). assert (HB : 0 < B) by (apply Z.pow_pos_nonneg; lia).
  rewrite E. replace (N * (D * B * A) + b) with (b + N * D * B * A) by lia.
  rewrite Z.div_add by lia. rewrite Z_mod_plus_full. reflexivity.
Qed.

Lemma replaced_range : forall lo w v b, (lo + w <= 8)%nat -> 0 <= v < 2 ^ Z.of_nat w -> 0 <= b < 256 ->
  0 <= replaced lo w v b < 256.
Proof.
  intros lo w v b H V B. rewrite replaced_split.
  set (A := 2 ^ Z.of_nat lo). set (C := 2 ^ Z.of_nat (lo + w)). set (D := 2 ^ Z.of_nat (8 - (lo + w))).
  assert (E1 : C = A * 2 ^ Z.of_nat w) by (unfold A, C; rewrite Nat2Z.inj_add, Z.pow_add_r by lia; reflexivity).
  assert (E2 : 256 = D * C) by (unfold C, D; rewrite <- !Z.pow_add_r by lia; change 256 with (2 ^ 8); f_equal; lia).
  assert (HA : 0 < A) by (apply Z.pow_pos_nonneg; lia). assert (HC : 0 < C) by (apply Z.pow_pos_nonneg; lia).
  assert (M : 0 <= b mod A < A) by (apply Z.mod_pos_bound; exact HA).
  assert (Q : 0 <= b / C < D).
  { split; [apply Z.div_pos; lia|]. apply Z.div_lt_upper_bound; lia. }
  nia.
Qed.

Lemma put_last : forall (l : bytes) b lo w v k, byte_ok b -> bytes_ok l -> k = length l -> (lo + w <= 8)%nat ->
  0 <= v < 2 ^ Z.of_nat w -> put (Place k lo w) v (l ++ [b]) = l ++ [replaced lo w v b].
Proof.
  intros l b lo w v k B L -> H V. unfold put. cbn [p_byte p_low p_width].
  rewrite app_length. cbn [length].
  replace (8 * (length l + 1 - 1 - length l) + lo)%nat with lo by lia.
  rewrite be_val_app1, replaced_low by exact H. rewrite Nat.add_1_r. cbn [be_bytes].
  pose proof (replaced_range lo w v b H V B) as R.
  rewrite Z.div_add_l by lia. rewrite Z.div_small, Z.add_0_r by exact R.
  rewrite be_bytes_be_val by exact L.
  rewrite Z.add_comm, Z_mod_plus_full, Z.mod_small by exact R. reflexivity.
Qed.

(** A CDB that the device understands has the control byte 0. *)
Lemma whole_zero : forall k l c, bytes_ok c -> In (whole k) l -> clear l c = true -> byte_at k c = 0.
Proof.
  intros k l c B I H. unfold clear in H. rewrite forallb_forall in H. specialize (H _ I). cbn in H.
  apply Z.eqb_eq in H. unfold bf in H. change (2 ^ Z.of_nat 0) with 1 in H. rewrite Z.div_1_r in H.
  change (2 ^ Z.of_nat 8) with 256 in H. pose proof (byte_at_ok k c B) as X. rewrite Z.mod_small in H by exact X. exact H.
Qed.

Lemma if_clear_zero : forall k l c o m, if_clear l c o = Some m -> bytes_ok c -> In (whole k) l -> byte_at k c = 0.
Proof.
  intros k l c o m H B I. unfold if_clear in H. destruct (clear l c) eqn:E; [|discriminate].
  eapply whole_zero; eauto.
Qed.

Lemma interpret_control : forall c m, interpret c = Some m -> bytes_ok c -> byte_at (length c - 1) c = 0.
Proof.
  intros c m H B. unfold interpret in H. destruct (zlen c =? cdb_length (byte_at 0 c)) eqn:E; [|discriminate].
  apply Z.eqb_eq in E. unfold interpret_op in H. cbv zeta in H.
  repeat match type of H with
  | (if byte_at 0 c =? ?op then _ else _) = _ =>
      let X := fresh "X" in destruct (byte_at 0 c =? op) eqn:X;
      [apply Z.eqb_eq in X; rewrite X in E; cbv [cdb_length Z.div Z.div_eucl Z.pos_div_eucl] in E|]
  | (if ?b then _ else _) = _ => destruct b; [|discriminate]
  end.
  all: try discriminate H.
  all: match type of E with _ = cdb_length ?n => let v := eval vm_compute in (cdb_length n) in change (cdb_length n) with v in E
       | _ => idtac end.
  all: match type of E with @zlen _ ?x = ?v => replace (length x - 1)%nat with (Z.to_nat (v - 1)) by (unfold zlen in E; lia) end.
  all: eapply if_clear_zero; [exact H|exact B|]; cbn; tauto.
Qed.

Lemma issued_image : forall c kw r, issued_with kw c = Ok r ->
  bytes_ok (command_of r) /\ length (command_of r) = fst (table c).
Proof.
  intros c kw r H. unfold issued_with in H. destruct (constructed c) as [o|e] eqn:C; cbn [bind] in H; [|discriminate].
  rewrite (request_with c o kw C) in H. destruct (checks c (kw ++ o_attrs o)); cbn [bind] in H; [|discriminate].
  rewrite pack_fields_spec in H. destruct (packable _ _); [|discriminate]. cbn [bind] in H.
  set (i := image _ _ _) in *.
  assert (E : command_of r = i).
  { pose proof (constructed_request c o C) as Q. injection H as <-. destruct (reads c).
    - rewrite Q. reflexivity.
    - destruct Q as [d Q]. rewrite Q. reflexivity. }
  rewrite E. unfold i. split; [apply image_ok|apply image_length].
Qed.

Lemma changed_command : forall c name p v r, command_of (changed c name p v r) = put p v (command_of r).
Proof. intros c name p v [|]; reflexivity. Qed.

Lemma control_here : forall c, takes_control c ->
  let k := (fst (table c) - 1)%nat in
  In ("control.naca", Place k 2 1) (places c) /\ In ("control.vendor_specific", Place k 6 2) (places c).
Proof.
  intros c T k.
  assert (X : existsb (fun e => String.eqb (fst e) "control.naca" && (p_byte (snd e) =? k)%nat
                                && (p_low (snd e) =? 2)%nat && (p_width (snd e) =? 1)%nat) (places c) = true)
    by (unfold k; destruct c; try contradiction T; vm_compute; reflexivity).
  assert (Y : existsb (fun e => String.eqb (fst e) "control.vendor_specific" && (p_byte (snd e) =? k)%nat
                                && (p_low (snd e) =? 6)%nat && (p_width (snd e) =? 2)%nat) (places c) = true)
    by (unfold k; destruct c; try contradiction T; vm_compute; reflexivity).
  clearbody k.
  split; [apply existsb_exists in X; destruct X as [[n p] [I E]]|apply existsb_exists in Y; destruct Y as [[n p] [I E]]];
    cbn [fst snd] in E; repeat (apply andb_true_iff in E; destruct E as [E ?]);
    repeat match goal with H : (_ =? _)%nat = true |- _ => apply Nat.eqb_eq in H end;
    apply String.eqb_eq in E; destruct p as [pb pl pw]; cbn [p_byte p_low p_width] in *; subst; exact I.
Qed.

Lemma replaced_control : forall n v, 0 <= n < 2 -> 0 <= v < 4 ->
  replaced 2 1 n (replaced 6 2 v 0) = 4 * n + 64 * v.
Proof.
  intros n v N V. assert (n = 0 \/ n = 1) as [->| ->] by lia;
    assert (v = 0 \/ v = 1 \/ v = 2 \/ v = 3) as [->|[->|[->| ->]]] by lia; reflexivity.
Qed.

Theorem control_byte : forall c n v r, proper c -> takes_control c -> issued c = Ok r -> 0 <= n < 2 -> 0 <= v < 4 ->
  exists r', issued_with (control_settings n v) c = Ok r' /\
    last (command_of r) 0 = 0 /\ command_of r' = removelast (command_of r) ++ [4 * n + 64 * v].
Proof.
  intros c n v r P T H N V. pose proof (issued_spec c P) as S. rewrite H in S. destruct S as [_ S].
  rewrite <- set_nothing in H. destruct (issued_image c [] r H) as [B L].
  destruct (control_here c T) as [C1 C2].
  pose proof (set_one c [] r _ _ v H C2 ltac:(cbn; lia)) as H1.
  pose proof (set_one c _ _ _ _ n H1 C1 ltac:(cbn; lia)) as H2.
  eexists. split; [exact H2|]. rewrite !changed_command.
  pose proof (interpret_control _ _ S B) as Z0.
  assert (Q : (0 < fst (table c))%nat) by (destruct c; vm_compute; lia).
  destruct (@exists_last _ (command_of r)) as [l [b E]].
  { intros E. rewrite E in L. cbn in L. lia. }
  rewrite E in *. rewrite app_length in L. cbn [length] in L.
  assert (K : (fst (table c) - 1)%nat = length l) by lia.
  assert (B0 : b = 0).
  { rewrite app_length, Nat.add_sub in Z0. unfold byte_at in Z0. rewrite app_nth2, Nat.sub_diag in Z0 by lia. exact Z0. }
  subst b. apply Forall_app in B. destruct B as [B _].
  rewrite put_last; [|split; lia|exact B|exact K|lia|cbn; lia].
  rewrite put_last; [|apply replaced_range; cbn; lia|exact B|exact K|lia|cbn; lia].
  split; [apply last_last|]. rewrite removelast_last, replaced_control by assumption. reflexivity.
Qed.

Theorem control_ignored : forall c kw, ~ takes_control c ->
  forall n v, issued_with (control_settings n v ++ kw) c = issued_with kw c.
Proof.
  intros c kw T n v. unfold control_settings. cbn [app].
  rewrite set_ignored, set_ignored; [reflexivity| |];
    destruct c; cbn [takes_control] in T; try tauto; cbn; intuition discriminate.
Qed.

(** * Order of assignments *)

Theorem set_twice : forall c kw name v w, issued_with ((name, v) :: (name, w) :: kw) c = issued_with ((name, v) :: kw) c.
Proof.
  intros. apply same_settings. intros x _. cbn. destruct (String.eqb x name); reflexivity.
Qed.
Theorem set_swap : forall c kw x y v w, x <> y ->
  issued_with ((x, v) :: (y, w) :: kw) c = issued_with ((y, w) :: (x, v) :: kw) c.
Proof.
  intros c kw x y v w N. apply same_settings. intros z _. cbn.
  destruct (String.eqb z x) eqn:E1; destruct (String.eqb z y) eqn:E2; try reflexivity.
  apply String.eqb_eq in E1. apply String.eqb_eq in E2. congruence.
Qed.

(** * Reusing an object for another address *)

Lemma pack_fields_ext : forall n fs (a b : attributes), (forall x, lookup x a = lookup x b) -> pack_fields n fs a = pack_fields n fs b.
Proof.
  intros n fs a b H. unfold pack_fields. f_equal. induction fs as [|f l IH]; [reflexivity|]. cbn [field_writes].
  rewrite (field_value_ext f a b) by apply H. rewrite IH. reflexivity.
Qed.

Lemma request_ext : forall D (R : attributes -> bytes -> scsi_command) F (a b : attributes),
  (forall x, lookup x a = lookup x b) ->
  (forall a b, (forall x, lookup x a = lookup x b) -> D a = D b) ->
  (forall a b cdb, (forall x, lookup x a = lookup x b) -> R a cdb = R b cdb) ->
  request (CdbObject a D R F) = request (CdbObject b D R F).
Proof.
  intros D R F a b H G1 G2. unfold request. cbn [o_datagram o_attrs o_request].
  rewrite (G1 a b H). destruct (D b); cbn [bind]; [rewrite (G2 a b) by exact H|]; reflexivity.
Qed.
Lemma struct_ext : forall l (a b : attributes), (forall x, lookup x a = lookup x b) -> pack_struct l a = pack_struct l b.
Proof. intros. apply pack_fields_ext. assumption. Qed.

Lemma address_first : forall (kw : attributes) x y rest, lookup "logical_block_address" kw = None ->
  forall z, lookup z (("logical_block_address", x) :: kw ++ (("logical_block_address", y) :: rest)) =
            lookup z (kw ++ (("logical_block_address", x) :: rest)).
Proof.
  intros kw x y rest H z. cbn [lookup]. rewrite !lookup_app. cbn [lookup].
  destruct (String.eqb z "logical_block_address") eqn:E; [|reflexivity].
  apply String.eqb_eq in E. subst z. rewrite H. reflexivity.
Qed.
Lemma address_again : forall x y (rest : attributes) z,
  lookup z (("logical_block_address", x) :: ("logical_block_address", y) :: rest) =
  lookup z (("logical_block_address", x) :: rest).
Proof. intros. cbn [lookup]. destruct (String.eqb z "logical_block_address"); reflexivity. Qed.

(** The attributes of the two objects agree. *)
Ltac agree :=
  cbn [assigned app o_attrs o_datagram o_request o_finish]; apply request_ext;
  [ first [ match goal with N : lookup _ _ = None |- _ => intros z; exact (address_first _ _ _ _ N z) end | intros z; exact (address_again _ _ _ z) ]
  | intros a1 b1 AB; cbn [o_datagram assigned]; first [exact (struct_ext _ a1 b1 AB) | cbv beta; rewrite (attr_ext "logical_block_address" a1 b1), (attr_ext "number_of_logical_blocks" a1 b1), (struct_ext _ a1 b1 AB) by apply AB; reflexivity]
  | intros a1 b1 cdb AB; cbn [o_request assigned]; unfold read_request, write_request; cbv beta; rewrite ?(attr_ext _ a1 b1) by apply AB; reflexivity ].

Theorem reuse : forall c bits lba, proper c -> address_bits c = Some bits -> is_ok (issued c) -> 0 <= lba < 2 ^ bits ->
  issued_with [("logical_block_address", lba)] c = issued (at_address lba c).
Proof.
  intros c bits lba P A [r H] L.
  destruct c; cbn [address_bits] in A; try discriminate A; injection A as <-; cbn [proper] in P;
    try match type of P with _ /\ _ => destruct P as [P _] end;
    try (pose proof (only_none _ "logical_block_address" _ P eq_refl) as N);
    unfold issued, issued_with in *; cbn [constructed at_address] in *;
    unfold with_settings, read10, read12, read16, write10, write12, write16, write_same10, write_same16,
      compare_and_write, read_capacity10, read_capacity16 in *;
    repeat match type of H with
    | context [assert_ (?x <? ?b)] => destruct (x <? b) eqn:?; cbn [assert_ bind] in H |- *; [|discriminate H]
    | context [assert_ ?x] => destruct x eqn:?; cbn [assert_ bind] in H |- *; [|discriminate H]
    | context [py_div ?x ?y] => destruct (py_div x y); cbn [bind] in H |- *; [|discriminate H]
    | context [py_mod ?x ?y] => destruct (py_mod x y); cbn [bind] in H |- *; [|discriminate H]
    end;
    try match goal with |- context [lba <? ?b] => rewrite (proj2 (Z.ltb_lt lba b)) by lia end;
    cbn [assert_ bind].
  all: agree.
Qed.
