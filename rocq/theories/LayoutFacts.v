(** Decoding pages that consist of numbers at fixed places. *)
From Coq Require Import String ZArith List Bool Lia.
From Verif Require Import Base BaseFacts OsCommon Instruct InstructFacts Command CdbPrimary SpecDevice CdbLemmas
  ResponseLemmas Pages SpecLayout.
Import ListNotations.
Local Open Scope string_scope.
Local Open Scope Z_scope.

Definition loc_bits (l : loc) : list bitpos :=
  match l with
  | Num a b => bytes_of a b
  | SNum a b => bytes_of a b
  | Bits k lo w => bits_of k lo (lo + w)
  | Mid a b lo w => firstn w (skipn lo (bytes_of a b))
  | Swapped k lo w j => (bits_of k lo (lo + w) ++ byte_of j)%list
  end.
Definition loc_ok (l : loc) : bool :=
  match l with
  | Num a b => (a <? b)%nat
  | SNum a b => (a <? b)%nat
  | Bits k lo w => ((0 <? w) && (lo + w <=? 8) && (w <? 8))%nat
  | Mid a b lo w => ((a <? b) && (lo <? 8) && (0 <? w) && (lo + w <=? 8 * (b - a)))%nat
  | Swapped k lo w j => ((0 <? w) && (lo + w <=? 8) && (w <? 8))%nat
  end.
Definition loc_signed (l : loc) : bool := match l with SNum _ _ => true | _ => false end.
Definition odd_width (ps : list bitpos) : bool := negb (Z.eqb (width ps mod 8) 0).

Lemma bits_value_firstn : forall w l, bits_value (firstn w l) = bits_value l mod 2 ^ Z.of_nat w.
Proof.
  induction w as [|w IH]; intros l.
  - cbn. rewrite Z.mod_1_r. reflexivity.
  - destruct l as [|b r].
    + cbn [firstn bits_value]. rewrite Z.mod_0_l; [reflexivity|]. apply Z.pow_nonzero; lia.
    + cbn [firstn bits_value]. rewrite IH. rewrite Nat2Z.inj_succ, Z.pow_succ_r by lia.
      set (m := 2 ^ Z.of_nat w). assert (0 < m) by (apply Z.pow_pos_nonneg; lia).
      set (v := bits_value r).
      replace (Z.b2z b + 2 * v) with (Z.b2z b + 2 * (v mod m) + (v / m) * (2 * m))
        by (rewrite (Z.div_mod v m) at 3 by lia; ring).
      rewrite Z.mod_add by lia. pose proof (Z.mod_pos_bound v m ltac:(lia)).
      symmetry. apply Z.mod_small. destruct b; cbn [Z.b2z]; lia.
Qed.
Lemma bits_value_skipn : forall k l, bits_value (skipn k l) = bits_value l / 2 ^ Z.of_nat k.
Proof.
  induction k as [|k IH]; intros l.
  - cbn. rewrite Z.div_1_r. reflexivity.
  - destruct l as [|b r].
    + cbn [skipn bits_value]. rewrite Z.div_0_l; [reflexivity|]. apply Z.pow_nonzero; lia.
    + cbn [skipn bits_value]. rewrite IH. rewrite Nat2Z.inj_succ, Z.pow_succ_r by lia.
      rewrite <- Z.div_div by (try lia; apply Z.pow_pos_nonneg; lia).
      f_equal. destruct b; cbn [Z.b2z]; Z.to_euclidean_division_equations; lia.
Qed.
Lemma bits_value_app : forall l m, bits_value (l ++ m) = bits_value l + 2 ^ zlen l * bits_value m.
Proof.
  induction l as [|b l IH]; intros m.
  - cbn [app bits_value]. change (zlen (@nil bool)) with 0. rewrite Z.pow_0_r. lia.
  - cbn [app bits_value]. rewrite IH. unfold zlen. cbn [length].
    rewrite Nat2Z.inj_succ, Z.pow_succ_r by lia. fold (zlen l). lia.
Qed.

Lemma length_bytes_of : forall a b, (a <= b)%nat -> length (bytes_of a b) = (8 * (b - a))%nat.
Proof. intros a b H. pose proof (width_bytes a b H) as W. unfold width, zlen in W. lia. Qed.

Lemma firstn_in : forall {A} n (l : list A) x, In x (firstn n l) -> In x l.
Proof.
  induction n as [|n IH]; intros l x H; [destruct H|]. destruct l as [|y l]; [destruct H|].
  cbn [firstn] in H. destruct H as [->|H]; [left; reflexivity|right; apply IH; exact H].
Qed.
Lemma skipn_in : forall {A} n (l : list A) x, In x (skipn n l) -> In x l.
Proof.
  induction n as [|n IH]; intros l x H; [exact H|]. destruct l as [|y l]; [destruct H|].
  right. apply IH. exact H.
Qed.
Lemma first_byte_bits : forall a b, (a < b)%nat ->
  exists r, bytes_of a b = (bits_of (b - 1) 0 8 ++ r)%list.
Proof.
  intros a b H. unfold bytes_of. replace (b - a)%nat with (S (b - a - 1)) by lia.
  cbn [seq flat_map]. rewrite Nat.sub_0_r. eexists. reflexivity.
Qed.
Lemma covered_mid : forall a b lo w buf, (a < b)%nat -> (lo < 8)%nat -> (0 < w)%nat ->
  covered (firstn w (skipn lo (bytes_of a b))) buf = (b <=? length buf)%nat.
Proof.
  intros a b lo w buf H L W. apply eq_true_iff_eq. unfold covered. rewrite forallb_forall, Nat.leb_le. split.
  - intros F. specialize (F (8 * (b - 1) + lo)%nat).
    assert (I : In (8 * (b - 1) + lo)%nat (firstn w (skipn lo (bytes_of a b)))).
    { destruct (first_byte_bits a b H) as [r ->].
      assert (E : skipn lo (bits_of (b - 1) 0 8 ++ r)%list =
                  (8 * (b - 1) + lo)%nat :: (skipn (S lo) (bits_of (b - 1) 0 8 ++ r))%list).
      { unfold bits_of. do 8 (destruct lo as [|lo]; [cbn; f_equal; lia|]). lia. }
      rewrite E. destruct w as [|w]; [lia|]. left. reflexivity. }
    specialize (F I). apply Nat.ltb_lt in F.
    replace ((8 * (b - 1) + lo) / 8)%nat with (b - 1)%nat in F by (apply (Nat.div_unique _ 8 _ lo); lia). lia.
  - intros B p P. apply firstn_in, skipn_in, bytes_of_in in P. apply Nat.ltb_lt.
    apply Nat.lt_le_trans with b; [|exact B]. apply Nat.div_lt_upper_bound; lia.
Qed.

Lemma covered_app : forall a b buf, covered (a ++ b)%list buf = covered a buf && covered b buf.
Proof. intros. apply forallb_app. Qed.
Lemma read_loc : forall l s buf, bytes_ok buf -> loc_ok l = true ->
  s = loc_signed l \/ odd_width (loc_bits l) = true ->
  read_int s (loc_bits l) buf = if (loc_end l <=? length buf)%nat then Ok (loc_value l buf) else Err EInstruct.
Proof.
  intros l s buf O K S.
  assert (U : read_int s (loc_bits l) buf = read_int (loc_signed l) (loc_bits l) buf).
  { destruct S as [->|S]; [reflexivity|]. unfold read_int, negative. unfold odd_width in S.
    apply negb_true_iff in S. rewrite S, !andb_false_r. reflexivity. }
  rewrite U. clear S U. destruct l as [a b|a b|k lo w|a b lo w|k lo w j];
    cbn [loc_bits loc_signed loc_end loc_value loc_ok] in *.
  - apply Nat.ltb_lt in K. apply read_bytes; assumption.
  - apply Nat.ltb_lt in K. apply read_sbytes; assumption.
  - rewrite !andb_true_iff, Nat.leb_le, !Nat.ltb_lt in K.
    rewrite read_bits by (auto; lia). replace (lo + w - lo)%nat with w by lia. reflexivity.
  - rewrite !andb_true_iff, Nat.leb_le, !Nat.ltb_lt in K.
    unfold read_int. rewrite covered_mid by lia. destruct (b <=? length buf)%nat eqn:B; [|reflexivity].
    apply Nat.leb_le in B. cbn [negative andb]. rewrite <- firstn_map, <- skipn_map.
    rewrite bits_value_firstn, bits_value_skipn, bytes_of_read by (auto; lia). reflexivity.
  - rewrite !andb_true_iff, Nat.leb_le, !Nat.ltb_lt in K.
    unfold read_int. rewrite covered_app. rewrite covered_bits by lia.
    rewrite byte_of_bytes, covered_bytes by lia.
    replace (S (Nat.max k j) <=? length buf)%nat with ((k <? length buf) && (S j <=? length buf))%nat%bool
      by (apply eq_true_iff_eq; rewrite andb_true_iff, Nat.ltb_lt, !Nat.leb_le; lia).
    destruct ((k <? length buf) && (S j <=? length buf))%nat%bool eqn:B; [|reflexivity].
    rewrite andb_true_iff, Nat.ltb_lt, Nat.leb_le in B. cbn [negative andb].
    rewrite map_app, bits_value_app, bits_of_read, bytes_of_read by (auto; lia).
    replace (zlen (map (bit_at buf) (bits_of k lo (lo + w)))) with (Z.of_nat w)
      by (unfold zlen, bits_of; rewrite !map_length, seq_length; lia).
    replace (lo + w - lo)%nat with w by lia. fold (bf k lo w buf). do 3 f_equal.
    unfold slice, byte_at. replace (S j - j)%nat with 1%nat by lia.
    destruct B as [_ B]. clear -B. revert j B. induction buf as [|x r IH]; intros j B; [cbn in B; lia|].
    destruct j as [|j]; [cbn; lia|]. cbn [skipn nth]. apply IH. cbn in B. lia.
Qed.

(** * A class against a layout *)
Definition same_place (f : field) (e : string * loc) : bool :=
  String.eqb (f_name f) (fst e) && (if list_eq_dec Nat.eq_dec (f_bits f) (loc_bits (snd e)) then true else false)
  && (Bool.eqb (f_signed f) (loc_signed (snd e)) || odd_width (loc_bits (snd e))) && loc_ok (snd e).
Fixpoint agree (fs : list field) (l : layout) : bool :=
  match fs, l with
  | [], [] => true
  | f :: r, e :: k => same_place f e && agree r k
  | _, _ => false
  end.

Lemma same_place_read : forall f e buf, bytes_ok buf -> same_place f e = true ->
  f_name f = fst e /\
  read_int (f_signed f) (f_bits f) buf = if (loc_end (snd e) <=? length buf)%nat then Ok (loc_value (snd e) buf) else Err EInstruct.
Proof.
  intros f e buf O H. unfold same_place in H. rewrite !andb_true_iff, orb_true_iff in H.
  destruct H as [[[N B] S] K]. apply String.eqb_eq in N.
  destruct (list_eq_dec Nat.eq_dec (f_bits f) (loc_bits (snd e))) as [E|]; [|discriminate].
  split; [exact N|]. rewrite E. apply read_loc; [exact O|exact K|].
  destruct S as [S|S]; [left; apply eqb_prop; exact S|right; exact S].
Qed.

Lemma unpack_layout : forall fs l, agree fs l = true -> forall k got buf, bytes_ok buf ->
  unpack_fields (map reader_of fs ++ k)%list got buf =
  if (layout_end l <=? length buf)%nat then unpack_fields k (got ++ layout_values l buf)%list buf else Err EInstruct.
Proof.
  induction fs as [|f fs IH]; intros l A k got buf O; destruct l as [|e l]; try discriminate.
  - cbn. rewrite app_nil_r. reflexivity.
  - cbn [agree] in A. apply andb_true_iff in A. destruct A as [A1 A2].
    destruct (same_place_read f e buf O A1) as [N R].
    cbn [map app unpack_fields]. unfold reader_of at 1. unfold r_int at 1. cbn [unpack_fields]. rewrite R.
    change (layout_end (e :: l)) with (Nat.max (loc_end (snd e)) (layout_end l)).
    destruct (Nat.leb_spec (loc_end (snd e)) (length buf)).
    + cbn [bind]. rewrite (IH l A2) by exact O.
      destruct (Nat.leb_spec (layout_end l) (length buf)) as [L|L].
      * replace (Nat.max (loc_end (snd e)) (layout_end l) <=? length buf)%nat with true
          by (symmetry; apply Nat.leb_le; lia).
        cbn [layout_values map]. rewrite <- app_assoc, N. reflexivity.
      * replace (Nat.max (loc_end (snd e)) (layout_end l) <=? length buf)%nat with false
          by (symmetry; apply Nat.leb_gt; lia). reflexivity.
    + cbn [bind]. replace (Nat.max (loc_end (snd e)) (layout_end l) <=? length buf)%nat with false
        by (symmetry; apply Nat.leb_gt; lia). reflexivity.
Qed.

Lemma unpack_layout_all : forall name fs l buf, agree fs l = true -> bytes_ok buf ->
  unpack (buffer_class name fs) buf =
  if (layout_end l <=? length buf)%nat then Ok (PObj name (layout_values l buf)) else Err EInstruct.
Proof.
  intros name fs l buf A O. unfold unpack, buffer_class. cbn [c_fields c_name].
  rewrite <- (app_nil_r (map reader_of fs)). rewrite (unpack_layout fs l A) by exact O.
  destruct (layout_end l <=? length buf)%nat; reflexivity.
Qed.
