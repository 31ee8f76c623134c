(** Reading numbers out of responses. *)
From Coq Require Import String ZArith List Bool Lia.
From Verif Require Import Base BaseFacts OsCommon Instruct InstructFacts Command SpecDevice CdbLemmas.
Import ListNotations.
Local Open Scope string_scope.
Local Open Scope Z_scope.

Lemma bytes_of_in : forall a b p, In p (bytes_of a b) <-> (8 * a <= p < 8 * b)%nat.
Proof.
  intros a b. destruct (Nat.le_gt_cases a b) as [H|H].
  - induction b as [|b IH] in H |- *; intros p.
    + replace a with 0%nat by lia. unfold bytes_of. cbn. lia.
    + destruct (Nat.eq_dec a (S b)) as [->|N].
      * unfold bytes_of. rewrite Nat.sub_diag. cbn. lia.
      * rewrite bytes_of_snoc by lia. rewrite in_app_iff, IH by lia.
        unfold byte_of, bits_of. rewrite in_map_iff. split.
        -- intros [(x & <- & X)|X]; [apply in_seq in X; lia|lia].
        -- intros X. destruct (Nat.lt_ge_cases p (8 * b)); [right; lia|left].
           exists (p - 8 * b)%nat. rewrite in_seq. lia.
  - intros p. unfold bytes_of. replace (b - a)%nat with 0%nat by lia. cbn. lia.
Qed.

Lemma width_bytes : forall a b, (a <= b)%nat -> width (bytes_of a b) = 8 * Z.of_nat (b - a).
Proof.
  intros a b H. unfold width, zlen. induction b as [|b IH] in H |- *.
  - unfold bytes_of. replace (0 - a)%nat with 0%nat by lia. reflexivity.
  - destruct (Nat.eq_dec a (S b)) as [->|N].
    + unfold bytes_of. rewrite Nat.sub_diag. reflexivity.
    + rewrite bytes_of_snoc, app_length by lia. specialize (IH ltac:(lia)).
      unfold byte_of, bits_of. rewrite map_length, seq_length. lia.
Qed.

Lemma covered_bytes : forall a b buf, (a < b)%nat -> covered (bytes_of a b) buf = (b <=? length buf)%nat.
Proof.
  intros a b buf H. unfold covered. apply eq_true_iff_eq. rewrite forallb_forall, Nat.leb_le. split.
  - intros F. specialize (F (8 * b - 1)%nat). rewrite bytes_of_in in F. specialize (F ltac:(lia)).
    apply Nat.ltb_lt in F. replace ((8 * b - 1) / 8)%nat with (b - 1)%nat in F; [lia|].
    apply (Nat.div_unique _ 8 _ 7); lia.
  - intros L p P. apply bytes_of_in in P. apply Nat.ltb_lt.
    apply Nat.lt_le_trans with b; [|exact L]. apply Nat.div_lt_upper_bound; lia.
Qed.
Lemma read_bytes : forall a b buf, (a < b)%nat -> bytes_ok buf ->
  read_int false (bytes_of a b) buf = if (b <=? length buf)%nat then Ok (ub a b buf) else Err EInstruct.
Proof.
  intros a b buf H O. unfold read_int. rewrite covered_bytes by exact H.
  destruct (Nat.leb_spec b (length buf)); [|reflexivity].
  cbn [negative andb]. unfold ub. rewrite bytes_of_read by (auto; lia). reflexivity.
Qed.
Lemma read_sbytes : forall a b buf, (a < b)%nat -> bytes_ok buf ->
  read_int true (bytes_of a b) buf = if (b <=? length buf)%nat then Ok (sb a b buf) else Err EInstruct.
Proof.
  intros a b buf H O. unfold read_int. rewrite covered_bytes by exact H.
  destruct (Nat.leb_spec b (length buf)); [|reflexivity].
  unfold negative, sb, ub. rewrite width_bytes by lia. rewrite bytes_of_read by (auto; lia).
  replace ((8 * Z.of_nat (b - a)) mod 8 =? 0) with true
    by (symmetry; apply Z.eqb_eq; rewrite Z.mul_comm; apply Z.mod_mul; lia).
  reflexivity.
Qed.
Lemma byte_of_bytes : forall k, byte_of k = bytes_of k (S k).
Proof.
  intros k. unfold bytes_of. replace (S k - k)%nat with 1%nat by lia. cbn [seq flat_map].
  rewrite app_nil_r. replace (S k - 1 - 0)%nat with k by lia. reflexivity.
Qed.

Lemma covered_bits : forall k lo hi buf, (lo < hi <= 8)%nat -> covered (bits_of k lo hi) buf = (k <? length buf)%nat.
Proof.
  intros k lo hi buf H. unfold covered, bits_of. apply eq_true_iff_eq. rewrite forallb_forall. split.
  - intros F. specialize (F (8 * k + lo)%nat). rewrite in_map_iff in F.
    specialize (F ltac:(exists lo; rewrite in_seq; lia)).
    replace ((8 * k + lo) / 8)%nat with k in F by (apply (Nat.div_unique _ 8 _ lo); lia). exact F.
  - intros L p P. apply in_map_iff in P. destruct P as (i & <- & P). apply in_seq in P.
    replace ((8 * k + i) / 8)%nat with k by (apply (Nat.div_unique _ 8 _ i); lia). exact L.
Qed.
Lemma read_bits : forall s k lo hi buf, (lo < hi <= 8)%nat -> (hi - lo < 8)%nat -> bytes_ok buf ->
  read_int s (bits_of k lo hi) buf = if (k <? length buf)%nat then Ok (bf k lo (hi - lo) buf) else Err EInstruct.
Proof.
  intros s k lo hi buf H W O. unfold read_int. rewrite covered_bits by exact H.
  destruct (Nat.ltb_spec k (length buf)); [|reflexivity].
  rewrite bits_of_read by (auto; lia).
  unfold negative, width, zlen, bits_of. rewrite map_length, seq_length.
  replace (Z.of_nat (hi - lo) mod 8 =? 0) with false
    by (symmetry; apply Z.eqb_neq; rewrite Z.mod_small by lia; lia).
  rewrite andb_false_r. reflexivity.
Qed.

(** Fields one after the other. *)
Lemma uf_ub : forall n a b k got buf, (a < b)%nat -> bytes_ok buf ->
  unpack_fields ((n, r_uint (bytes_of a b)) :: k) got buf =
  if (b <=? length buf)%nat then unpack_fields k (got ++ [(n, PInt (ub a b buf))])%list buf else Err EInstruct.
Proof.
  intros. cbn [unpack_fields]. unfold r_uint, r_int. rewrite read_bytes by assumption.
  destruct (b <=? length buf)%nat; reflexivity.
Qed.
Lemma uf_byte : forall n j k got buf, bytes_ok buf ->
  unpack_fields ((n, r_uint (byte_of j)) :: k) got buf =
  if (S j <=? length buf)%nat then unpack_fields k (got ++ [(n, PInt (ub j (S j) buf))])%list buf else Err EInstruct.
Proof. intros. rewrite byte_of_bytes. apply uf_ub; [lia|assumption]. Qed.
Lemma uf_sb : forall n a b k got buf, (a < b)%nat -> bytes_ok buf ->
  unpack_fields ((n, r_sint (bytes_of a b)) :: k) got buf =
  if (b <=? length buf)%nat then unpack_fields k (got ++ [(n, PInt (sb a b buf))])%list buf else Err EInstruct.
Proof.
  intros. cbn [unpack_fields]. unfold r_sint, r_int. rewrite read_sbytes by assumption.
  destruct (b <=? length buf)%nat; reflexivity.
Qed.
Lemma uf_sbyte : forall n j k got buf, bytes_ok buf ->
  unpack_fields ((n, r_sint (byte_of j)) :: k) got buf =
  if (S j <=? length buf)%nat then unpack_fields k (got ++ [(n, PInt (sb j (S j) buf))])%list buf else Err EInstruct.
Proof. intros. rewrite byte_of_bytes. apply uf_sb; [lia|assumption]. Qed.
Lemma uf_bits : forall n j lo hi k got buf, ((lo <? hi) && (hi <=? 8) && (hi - lo <? 8) = true)%nat -> bytes_ok buf ->
  unpack_fields ((n, r_uint (bits_of j lo hi)) :: k) got buf =
  if (S j <=? length buf)%nat then unpack_fields k (got ++ [(n, PInt (bf j lo (hi - lo) buf))])%list buf else Err EInstruct.
Proof.
  intros n j lo hi k got buf H O. rewrite !andb_true_iff, Nat.leb_le, !Nat.ltb_lt in H.
  cbn [unpack_fields]. unfold r_uint, r_int. rewrite read_bits by (auto; lia).
  unfold Nat.ltb. destruct (S j <=? length buf)%nat; reflexivity.
Qed.
Lemma uf_sbits : forall n j lo hi k got buf, ((lo <? hi) && (hi <=? 8) && (hi - lo <? 8) = true)%nat -> bytes_ok buf ->
  unpack_fields ((n, r_sint (bits_of j lo hi)) :: k) got buf =
  if (S j <=? length buf)%nat then unpack_fields k (got ++ [(n, PInt (bf j lo (hi - lo) buf))])%list buf else Err EInstruct.
Proof.
  intros n j lo hi k got buf H O. rewrite !andb_true_iff, Nat.leb_le, !Nat.ltb_lt in H.
  cbn [unpack_fields]. unfold r_sint, r_int. rewrite read_bits by (auto; lia).
  unfold Nat.ltb. destruct (S j <=? length buf)%nat; reflexivity.
Qed.

(** Fields of a Struct given by bit positions: (bit position, width) as bits of a byte. *)
Lemma seq_bits : forall p w j lo hi, p = (8 * j + lo)%nat -> hi = (lo + w)%nat -> seq p w = bits_of j lo hi.
Proof.
  intros p w j lo hi -> ->. unfold bits_of. replace (lo + w - lo)%nat with w by lia.
  revert lo. induction w as [|w IH]; intros lo; [reflexivity|]. cbn [seq map]. f_equal.
  replace (S (8 * j + lo)) with (8 * j + S lo)%nat by lia. apply IH.
Qed.

Lemma zlen_leb : forall n (b : bytes), (Z.of_nat n <=? zlen b) = (n <=? length b)%nat.
Proof.
  intros n b. unfold zlen. apply eq_true_iff_eq. rewrite Z.leb_le, Nat.leb_le. lia.
Qed.

(** [unpack_fields l got buf] by rewriting; the buffer is [b], [O : bytes_ok b]. *)
Ltac uf_step O :=
  first [ rewrite uf_ub by (first [exact O | vm_compute; lia])
        | rewrite uf_byte by exact O
        | rewrite uf_sb by (first [exact O | vm_compute; lia])
        | rewrite uf_sbyte by exact O
        | rewrite uf_bits by (first [exact O | reflexivity])
        | rewrite uf_sbits by (first [exact O | reflexivity]) ];
  cbn [Nat.sub app].
Ltac too_short :=
  match goal with
  | |- context [(?n <=? length ?b)%nat] =>
      first [ replace (n <=? length b)%nat with true by (symmetry; apply Nat.leb_le; lia)
            | replace (n <=? length b)%nat with false by (symmetry; apply Nat.leb_gt; lia) ]
  end; cbv iota.
(** Both sides of [if enough then Ok ... else Err ...]. *)
Ltac flat_tac O n :=
  match goal with |- _ = (if _ then _ else _) =>
    change n with (Z.of_nat (Z.to_nat n)); rewrite zlen_leb;
    let m := eval vm_compute in (Z.to_nat n) in change (Z.to_nat n) with m;
    match type of O with bytes_ok ?b =>
    destruct (Nat.leb_spec m (length b));
    [ repeat (uf_step O; too_short); reflexivity
    | repeat (uf_step O;
        match goal with |- (if (?k <=? length b)%nat then _ else _) = _ => destruct (Nat.leb_spec k (length b)); [|reflexivity] end);
      exfalso; lia ]
    end
  end.

(** Lists of elements that are encoded one after the other. *)
Section Lists.
Context {A : Type} (enc : A -> bytes) (obj : A -> pyval) (one : element).
Definition decodes (x : A) : Prop :=
  enc x <> [] /\ bytes_ok (enc x) /\
  forall rest, bytes_ok rest -> one (enc x ++ rest)%list = Ok (obj x, length (enc x)).

Lemma enc_ok : forall l, Forall decodes l -> bytes_ok (flat_map enc l).
Proof.
  intros l F. induction F as [|x l (N & O & _) F IH]; cbn [flat_map]; [constructor|].
  apply bytes_ok_app. split; assumption.
Qed.
Lemma list_n_enc : forall l rest, Forall decodes l -> bytes_ok rest ->
  list_n one (length l) (flat_map enc l ++ rest)%list = Ok (map obj l, length (flat_map enc l)).
Proof.
  intros l rest F R. induction F as [|x l (N & O & D) F IH]; [reflexivity|].
  cbn [length list_n flat_map map]. rewrite <- app_assoc. rewrite D by (apply bytes_ok_app; split; [apply enc_ok; exact F|exact R]).
  cbn [bind]. rewrite skipn_app, skipn_all, Nat.sub_diag. cbn [skipn app]. rewrite IH. cbn [bind].
  rewrite app_length. reflexivity.
Qed.
Lemma list_all_enc : forall l fuel, Forall decodes l -> (length (flat_map enc l) <= fuel)%nat ->
  list_all one fuel (flat_map enc l) = Ok (map obj l).
Proof.
  intros l fuel F. revert fuel. induction F as [|x l (N & O & D) F IH]; intros fuel L.
  - destruct fuel; reflexivity.
  - cbn [flat_map map] in *. rewrite app_length in L.
    specialize (D (flat_map enc l) (enc_ok l F)).
    destruct (enc x) as [|b r] eqn:E; [contradiction|]. cbn [app length] in *.
    destruct fuel as [|fuel]; [lia|]. cbn [list_all]. rewrite D. cbn [bind skipn].
    rewrite skipn_app, skipn_all, Nat.sub_diag. cbn [skipn app]. rewrite IH by lia. reflexivity.
Qed.
Lemma read_list_enc : forall l, Forall decodes l -> read_list one (flat_map enc l) = Ok (map obj l).
Proof. intros l F. apply list_all_enc; [exact F|lia]. Qed.
End Lists.
