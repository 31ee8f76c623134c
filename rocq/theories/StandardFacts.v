(** Standard INQUIRY data: packing, reading back, packing again what was read. *)
From Coq Require Import String ZArith List Bool Lia.
From Verif Require Import Base BaseFacts OsCommon Instruct InstructFacts Command CdbPrimary SpecDevice CdbLemmas
  ResponseLemmas CdbResponseFacts CdbPrimaryFacts Pages SpecLayout LayoutFacts SpecPages PageFacts DesignatorFacts SpecVpd VpdFacts
  SpecPack PackFacts InquiryFacts SpecStandard.
From Verif Require SesFacts.
Import ListNotations.
Local Open Scope string_scope.
Local Open Scope list_scope.
Local Open Scope Z_scope.

(** * The extension *)
Lemma firstn_exact : forall A (a b : list A) n, n = length a -> firstn n (a ++ b) = a.
Proof. intros A a b n ->. rewrite firstn_app, Nat.sub_diag, firstn_all. apply app_nil_r. Qed.
Lemma put_behind : forall off data (buf : bytes), (length buf <= off)%nat ->
  put off data buf = (buf ++ zeros (off - length buf)) ++ data.
Proof.
  intros off data buf L. unfold put, slice. cbn [skipn]. rewrite Nat.sub_0_r.
  rewrite firstn_all2 by (rewrite app_length; unfold zeros; rewrite repeat_length; lia).
  rewrite (skipn_all2 buf) by lia. rewrite app_nil_r. reflexivity.
Qed.
Lemma put_last : forall (a : bytes) x y, put (length a) [y] (a ++ [x]) = a ++ [y].
Proof.
  intros a x y. unfold put, slice. cbn [skipn length]. rewrite Nat.sub_0_r.
  replace (length a - length (a ++ [x]))%nat with 0%nat by (rewrite app_length; cbn; lia).
  unfold zeros. cbn [repeat]. rewrite (app_nil_r (a ++ [x])). rewrite firstn_exact by reflexivity.
  rewrite skipn_all2 by (rewrite app_length; cbn; lia). rewrite app_nil_r. reflexivity.
Qed.
Lemma byte_last : forall (a : bytes) x, byte_at (length a) (a ++ [x]) = x.
Proof. intros. unfold byte_at. rewrite app_nth2 by lia. rewrite Nat.sub_diag. reflexivity. Qed.
Lemma byte_beyond : forall k (a : bytes), (length a <= k)%nat -> byte_at k a = 0.
Proof. intros. apply nth_overflow. assumption. Qed.

Lemma in_width_spec : forall w v, 0 <= w -> in_width w v = if (0 <=? v) && (v <? 2 ^ w) then Ok tt else Err EInstruct.
Proof. reflexivity. Qed.
Lemma in_width_below : forall w v, below w v -> in_width w v = Ok tt.
Proof.
  intros w v [A B]. unfold in_width. rewrite (proj2 (Z.leb_le _ _) A), (proj2 (Z.ltb_lt _ _) B). reflexivity.
Qed.
Lemma in_width_cases : forall w v, below w v /\ in_width w v = Ok tt \/ ~ below w v /\ in_width w v = Err EInstruct.
Proof.
  intros w v. unfold in_width, below. destruct (Z.leb_spec 0 v); destruct (Z.ltb_spec v (2 ^ w)); cbn [andb]; first [left; split; [lia|reflexivity] | right; split; [lia|reflexivity]].
Qed.
Lemma all_in_width_cases : forall w l, Forall (below w) l /\ all_in_width w l = Ok tt \/ ~ Forall (below w) l /\ all_in_width w l = Err EInstruct.
Proof.
  induction l as [|v r IH]; [left; split; [constructor|reflexivity]|]. cbn [all_in_width].
  destruct (in_width_cases w v) as [[A ->]|[A ->]]; cbn [bind].
  - destruct IH as [[B ->]|[B ->]]; [left; split; [constructor; assumption|reflexivity]|right; split; [|reflexivity]].
    intros C. inversion C. contradiction.
  - right. split; [|reflexivity]. intros C. inversion C. contradiction.
Qed.

Definition packed_extension (e : extended) : bytes :=
  let b1 := put 0 (vendor_specific_1 e) [] in
  let b2 := put_bits 20 0 1 (ius e) b1 in
  let b3 := put_bits 20 1 1 (qas e) b2 in
  let b4 := put_bits 20 2 2 (clocking e) b3 in
  let b5 := put 22 (flat_map (be_bytes 2) (version_descriptors e)) b4 in
  match vendor_specific_2 e with None => b5 | Some v => put 60 v b5 end.
Lemma pack_extended_cases : forall e, extension_fits e /\ pack_extended e = Ok (packed_extension e) \/
  ~ extension_fits e /\ pack_extended e = Err EInstruct.
Proof.
  intros e. unfold pack_extended, extension_fits.
  destruct (in_width_cases 1 (ius e)) as [[A1 ->]|[A1 ->]]; cbn [bind]; [|right; split; [tauto|reflexivity]].
  destruct (in_width_cases 1 (qas e)) as [[A2 ->]|[A2 ->]]; cbn [bind]; [|right; split; [tauto|reflexivity]].
  destruct (in_width_cases 2 (clocking e)) as [[A3 ->]|[A3 ->]]; cbn [bind]; [|right; split; [tauto|reflexivity]].
  destruct (all_in_width_cases 16 (version_descriptors e)) as [[A4 ->]|[A4 ->]]; cbn [bind]; [|right; split; [tauto|reflexivity]].
  left. split; [tauto|reflexivity].
Qed.
Lemma zeros_length : forall n, length (zeros n) = n.
Proof. intros. apply repeat_length. Qed.

Lemma packed_extension_spec : forall e, extension_fits e -> (length (vendor_specific_1 e) <= 20)%nat ->
  (length (version_descriptors e) <= 8)%nat -> packed_extension e = extension e.
Proof.
  intros e ((I1 & I2) & (Q1 & Q2) & (C1 & C2) & _) L1 L2. unfold packed_extension.
  rewrite (put_behind 0 (vendor_specific_1 e) []) by (cbn; lia). cbn [length Nat.sub zeros repeat app].
  set (a := vendor_specific_1 e ++ zeros (20 - length (vendor_specific_1 e))).
  assert (LA : length a = 20%nat) by (unfold a; rewrite app_length, zeros_length; lia).
  assert (E2 : put_bits 20 0 1 (ius e) (vendor_specific_1 e) = a ++ [ius e]).
  { unfold put_bits. rewrite byte_beyond by lia. rewrite put_behind by lia. fold a. do 2 f_equal. cbn. lia. }
  rewrite E2.
  assert (P : forall lo w v x, put_bits 20 lo w v (a ++ [x]) =
     a ++ [x / 2 ^ Z.of_nat (lo + w) * 2 ^ Z.of_nat (lo + w) + v * 2 ^ Z.of_nat lo + x mod 2 ^ Z.of_nat lo]).
  { intros lo w v x. unfold put_bits. rewrite <- LA. rewrite byte_last. apply put_last. }
  rewrite !P.
  change (2 ^ Z.of_nat (1 + 1)) with 4. change (2 ^ Z.of_nat (2 + 2)) with 16. change (2 ^ Z.of_nat 1) with 2. change (2 ^ Z.of_nat 2) with 4.
  change (2 ^ 1) with 2 in *. change (2 ^ 2) with 4 in *.
  replace (ius e / 4 * 4 + qas e * 2 + ius e mod 2) with (ius e + 2 * qas e)
    by (rewrite (Z.div_small (ius e)), (Z.mod_small (ius e)) by lia; lia).
  replace ((ius e + 2 * qas e) / 16 * 16 + clocking e * 4 + (ius e + 2 * qas e) mod 4) with (ius e + 2 * qas e + 4 * clocking e)
    by (rewrite (Z.div_small (ius e + 2 * qas e)), (Z.mod_small (ius e + 2 * qas e)) by lia; lia).
  set (x := ius e + 2 * qas e + 4 * clocking e).
  rewrite (put_behind 22) by (rewrite app_length, LA; cbn; lia). rewrite app_length, LA.
  change (zeros (22 - (20 + length [x]))) with [0]. unfold extension. fold x.
  destruct (vendor_specific_2 e) as [v|].
  - rewrite put_behind by (rewrite !app_length, LA, flat_be_length; cbn [length]; lia).
    rewrite !app_length, LA, flat_be_length. cbn [length].
    replace (60 - (20 + 1 + 1 + 2 * length (version_descriptors e)))%nat with (38 - 2 * length (version_descriptors e))%nat by lia.
    unfold a. rewrite <- !app_assoc. reflexivity.
  - unfold a. rewrite app_nil_r, <- !app_assoc. reflexivity.
Qed.

(** * The first eight bytes *)
Lemma bits_value_inj : forall (a b : list bool), length a = length b -> bits_value a = bits_value b -> a = b.
Proof.
  induction a as [|x a IH]; intros [|y b] L E; try discriminate; [reflexivity|]. cbn [bits_value] in E.
  assert (X : x = y) by (destruct x, y; cbn [Z.b2z] in E; try reflexivity; exfalso; lia). subst y. f_equal.
  apply IH; [injection L; auto|lia].
Qed.
(** The bits of the ranges [l] (byte, first bit, number of bits). *)
Definition range_bits (l : list (nat * nat * nat)) : list bitpos :=
  flat_map (fun e => bits_of (fst (fst e)) (snd (fst e)) (snd (fst e) + snd e)) l.
Definition in_byte (l : list (nat * nat * nat)) : bool := forallb (fun e => (snd (fst e) + snd e <=? 8)%nat) l.
Definition no_gap (n : nat) (fs : list field) (l : list (nat * nat * nat)) : bool :=
  forallb (fun p => existsb (Nat.eqb p) (flat_map f_bits fs) || existsb (Nat.eqb p) (range_bits l)) (seq 0 (8 * n)).
Lemma bits_value_zero : forall l, bits_value l = 0 -> forall b, In b l -> b = false.
Proof.
  induction l as [|x r IH]; intros E b [].
  - subst b. cbn [bits_value] in E. pose proof (bits_value_bounds r). destruct x; [cbn [Z.b2z] in E; lia|reflexivity].
  - apply IH; [|assumption]. cbn [bits_value] in E. pose proof (bits_value_bounds r). destruct x; cbn [Z.b2z] in E; lia.
Qed.
Lemma range_clear : forall k lo w buf p, bytes_ok buf -> (lo + w <= 8)%nat -> bf k lo w buf = 0 ->
  In p (bits_of k lo (lo + w)) -> bit_at buf p = false.
Proof.
  intros k lo w buf p O L E I. unfold bf in E. replace (Z.of_nat w) with (Z.of_nat (lo + w - lo)) in E by lia.
  rewrite <- bits_of_read in E by (auto; lia). apply (bits_value_zero _ E). apply in_map. exact I.
Qed.
Lemma existsb_in : forall p l, existsb (Nat.eqb p) l = true <-> In p l.
Proof.
  intros p l. rewrite existsb_exists. split; [intros (q & I & E); apply Nat.eqb_eq in E; congruence|].
  intros I. exists p. split; [exact I|apply Nat.eqb_refl].
Qed.
Lemma image_same : forall n fs a l (buf : bytes), separate n fs = true -> length buf = n -> bytes_ok buf ->
  in_byte l = true -> no_gap n fs l = true ->
  (forall f, In f fs -> bits_value (map (bit_at buf) (f_bits f)) = code f a) ->
  (forall k lo w, In (k, lo, w) l -> bf k lo w buf = 0) ->
  image n fs a = buf.
Proof.
  intros n fs a l buf S L O IB R F Z.
  assert (B : forall p, (p < 8 * n)%nat -> bit_at (image n fs a) p = bit_at buf p).
  { intros p P. unfold no_gap in R. rewrite forallb_forall in R. specialize (R p (proj2 (in_seq _ _ _) (conj (Nat.le_0_l p) P))).
    destruct (existsb (Nat.eqb p) (flat_map f_bits fs)) eqn:X.
    - apply existsb_in in X. apply in_flat_map in X. destruct X as (f & I & J).
      assert (E : map (bit_at (image n fs a)) (f_bits f) = map (bit_at buf) (f_bits f)).
      { apply bits_value_inj; [rewrite !map_length; reflexivity|]. rewrite image_read by assumption. symmetry. apply F. exact I. }
      clear - E J. induction (f_bits f) as [|q r IH]; [contradiction|]. injection E as E1 E2. destruct J as [->|J]; [exact E1|auto].
    - cbn [orb] in R. rewrite image_zero; [|exact P|intros I; apply existsb_in in I; congruence]. symmetry.
      apply existsb_in in R. apply in_flat_map in R. destruct R as ([[k lo] w] & I & J).
      unfold in_byte in IB. rewrite forallb_forall in IB. specialize (IB _ I). apply Nat.leb_le in IB.
      exact (range_clear k lo w buf p O IB (Z k lo w I) J). }
  apply (nth_ext _ _ 0 0); [rewrite image_length; congruence|]. rewrite image_length. intros k K.
  change (byte_at k (image n fs a) = byte_at k buf). rewrite <- !byte_of_read by (auto using image_ok).
  f_equal. apply map_ext_in. intros p J. apply B. unfold byte_of, bits_of in J. apply in_map_iff in J.
  destruct J as (i & <- & J). apply in_seq in J. lia.
Qed.

(** The number of a field, read from bytes, is what [bf] or the byte says. *)
Lemma bits_read_bf : forall k lo w buf, bytes_ok buf -> (lo + w <= 8)%nat ->
  bits_value (map (bit_at buf) (bits_of k lo (lo + w))) = bf k lo w buf.
Proof.
  intros k lo w buf O L. rewrite bits_of_read by (auto; lia). unfold bf. replace (lo + w - lo)%nat with w by lia. reflexivity.
Qed.

(** * When packing succeeds *)
Lemma packable_table : forall fs a, (forall f, In f fs -> f_init f = Required /\ (f_signed f && (width (f_bits f) mod 8 =? 0)) = false) ->
  (packable fs a = true <-> forall n w, In (n, w) (map (fun f => (f_name f, width (f_bits f))) fs) ->
     exists v, lookup n a = Some v /\ below w v).
Proof.
  intros fs a H. unfold packable. rewrite forallb_forall. split.
  - intros P n w I. apply in_map_iff in I. destruct I as (f & E & I). injection E as <- <-. specialize (P f I).
    destruct (H f I) as (R & Q). unfold field_value in P. rewrite R in P. destruct (lookup (f_name f) a) as [v|]; [|discriminate].
    exists v. split; [reflexivity|]. unfold in_range in P. rewrite Q in P. apply andb_true_iff in P. rewrite Z.leb_le, Z.ltb_lt in P. exact P.
  - intros P f I. destruct (P (f_name f) (width (f_bits f))) as (v & E & B); [apply in_map_iff; exists f; auto|].
    destruct (H f I) as (R & Q). unfold field_value. rewrite R, E. unfold in_range. rewrite Q. apply andb_true_iff.
    rewrite Z.leb_le, Z.ltb_lt. exact B.
Qed.
Lemma code_table : forall f a, f_init f = Required -> (exists v, lookup (f_name f) a = Some v /\ below (width (f_bits f)) v) ->
  code f a = attr (f_name f) a.
Proof.
  intros f a R (v & E & B). unfold code, field_value, attr. rewrite R, E. apply Z.mod_small. exact B.
Qed.

Lemma lookup_other : forall n m (v : Z) r, n <> m -> lookup n ((m, v) :: r) = lookup n r.
Proof. intros n m v r H. cbn. apply String.eqb_neq in H. rewrite H. reflexivity. Qed.
Lemma numbers_table : map (fun f => (f_name f, width (f_bits f))) standard_inquiry_numbers =
  map (fun e => (fst e, loc_bits (snd e))) standard_inquiry_layout.
Proof. reflexivity. Qed.
Lemma numbers_packable : forall len numbers,
  packable standard_inquiry_numbers (("additional_length", len) :: numbers) = true <-> numbers_fit numbers /\ below 8 len.
Proof.
  intros len numbers. rewrite packable_table.
  2:{ intros f I. cbn [In standard_inquiry_numbers] in I. repeat (destruct I as [<-|I]; [split; reflexivity|]). contradiction. }
  rewrite numbers_table. split.
  - intros P. split.
    + intros n l I N. destruct (P n (loc_bits l)) as (v & E & B); [apply in_map_iff; exists (n, l); auto|].
      rewrite lookup_other in E by exact N. eauto.
    + destruct (P "additional_length" 8) as (v & E & B); [do 6 right; left; reflexivity|]. injection E as <-. exact B.
  - intros (F & B) n w I. apply in_map_iff in I. destruct I as ((m & l) & E & I). injection E as <- <-.
    destruct (String.string_dec m "additional_length") as [->|N].
    + exists len. split; [reflexivity|].
      assert (X : l = Num 4 5).
      { cbn [In standard_inquiry_layout] in I. repeat (destruct I as [I|I]; [first [discriminate I | injection I as <-; reflexivity]|]). contradiction. }
      subst l. exact B.
    + rewrite lookup_other by exact N. exact (F m l I N).
Qed.
Lemma peripheral_packable : forall t q,
  packable peripheral_device_fields [("type", t); ("qualifier", q)] = true <-> below 5 t /\ below 3 q.
Proof.
  intros t q. rewrite packable_table.
  2:{ intros f I. cbn [In peripheral_device_fields] in I. repeat (destruct I as [<-|I]; [split; reflexivity|]). contradiction. }
  split.
  - intros P. split.
    + destruct (P "type" 5) as (v & E & B); [left; reflexivity|]. injection E as <-. exact B.
    + destruct (P "qualifier" 3) as (v & E & B); [right; left; reflexivity|]. injection E as <-. exact B.
  - intros (A & B) n w [I|[I|[]]]; injection I as <- <-; [exists t|exists q]; split; auto; exact A || exact B.
Qed.

Lemma peripheral_image : forall t q, below 5 t -> below 3 q ->
  image 1 peripheral_device_fields [("type", t); ("qualifier", q)] = [t + 32 * q].
Proof.
  intros t q A B. unfold below in A, B. change (2 ^ 5) with 32 in A. change (2 ^ 3) with 8 in B.
  assert (O : bytes_ok [t + 32 * q]) by (constructor; [unfold byte_ok; lia|constructor]).
  apply (image_same _ _ _ []); try reflexivity; [exact O| |intros k lo w []].
  intros f [<-|[<-|[]]].
  - rewrite code_table; [|reflexivity|exists t; split; [reflexivity|exact A]].
    change (f_bits (I "type" (bits_of 0 0 5))) with (bits_of 0 0 (0 + 5)). rewrite bits_read_bf by (auto; lia).
    unfold bf. cbn [byte_at nth]. change (2 ^ Z.of_nat 0) with 1. change (2 ^ Z.of_nat 5) with 32. change (attr _ _) with t.
    Z.to_euclidean_division_equations. lia.
  - rewrite code_table; [|reflexivity|exists q; split; [reflexivity|exact B]].
    change (f_bits (I "qualifier" (bits_of 0 5 8))) with (bits_of 0 5 (5 + 3)). rewrite bits_read_bf by (auto; lia).
    unfold bf. cbn [byte_at nth]. change (2 ^ Z.of_nat 5) with 32. change (2 ^ Z.of_nat 3) with 8. change (attr _ _) with q.
    Z.to_euclidean_division_equations. lia.
Qed.

(** The eight bytes for given numbers. *)
Definition header (first len : Z) (n : string -> Z) : bytes :=
  [first; 64 * n "cong" + 128 * n "rmb"; n "version"; n "response_data_format" + 16 * n "hisup" + 32 * n "normaca"; len;
   n "protect" + 8 * n "threepc" + 16 * n "tpgs" + 64 * n "acc" + 128 * n "sccs";
   n "addr16" + 16 * n "multi_p" + 64 * n "enc_serv"; 2 * n "cmd_que" + 16 * n "sync" + 32 * n "wbus16"].
Definition header_fits (len : Z) (n : string -> Z) : Prop :=
  (0 <= n "cong" < 2 /\ 0 <= n "rmb" < 2 /\ 0 <= n "version" < 256 /\ 0 <= n "response_data_format" < 16 /\ 0 <= n "hisup" < 2 /\
   0 <= n "normaca" < 2 /\ 0 <= len < 256) /\
  (0 <= n "protect" < 2 /\ 0 <= n "threepc" < 2 /\ 0 <= n "tpgs" < 4 /\ 0 <= n "acc" < 2 /\ 0 <= n "sccs" < 2) /\
  (0 <= n "addr16" < 2 /\ 0 <= n "multi_p" < 2 /\ 0 <= n "enc_serv" < 2 /\ 0 <= n "cmd_que" < 2 /\ 0 <= n "sync" < 2 /\ 0 <= n "wbus16" < 2).
Lemma header_ok : forall first len n, byte_ok first -> header_fits len n -> bytes_ok (header first len n).
Proof.
  intros first len n F H. unfold header_fits in H. unfold byte_ok in F.
  unfold header, bytes_ok. repeat (apply Forall_cons; [unfold byte_ok; lia|]). apply Forall_nil.
Qed.
(** What is found in them. *)
Definition header_value (len : Z) (n : string -> Z) (k : string) : Z := if String.eqb k "additional_length" then len else n k.
Ltac read_header := unfold bf; cbn [byte_at nth header];
  repeat match goal with |- context [2 ^ Z.of_nat ?k] => let v := eval compute in (2 ^ Z.of_nat k) in change (2 ^ Z.of_nat k) with v end;
  Z.to_euclidean_division_equations; lia.
Lemma header_value_at : forall first len n e rest, header_fits len n -> In e standard_inquiry_layout ->
  loc_value (snd e) (header first len n ++ rest) = header_value len n (fst e).
Proof.
  intros first len n e rest H I. unfold header_fits in H. cbn [In standard_inquiry_layout] in I.
  repeat (destruct I as [<-|I]; [cbn [fst snd loc_value flag]|]); try contradiction;
    match goal with |- _ = header_value _ _ ?k => let v := eval cbv in (String.eqb k "additional_length") in
      change (header_value len n k) with (if v then len else n k); cbv iota end;
    first [rewrite byte_at_ub; reflexivity | unfold flag; cbn [loc_value header app]; read_header].
Qed.
Lemma header_unused : forall first len n k lo w rest, header_fits len n -> In (k, lo, w) unused_bits ->
  bf k lo w (header first len n ++ rest) = 0.
Proof.
  intros first len n k lo w rest H I. unfold header_fits in H. cbn [In unused_bits] in I.
  repeat (destruct I as [E|I]; [injection E as <- <- <-; cbn [header app]; read_header|]). contradiction.
Qed.

Lemma fits_header : forall len numbers, numbers_fit numbers -> below 8 len -> header_fits len (fun k => attr k numbers).
Proof.
  intros len numbers F B.
  assert (G : forall n l, In (n, l) standard_inquiry_layout -> n <> "additional_length" -> 0 <= attr n numbers < 2 ^ loc_bits l).
  { intros n l I N. destruct (F n l I N) as (v & E & R). unfold attr. rewrite E. exact R. }
  assert (J : forall i n l, nth_error standard_inquiry_layout i = Some (n, l) -> n <> "additional_length" -> 0 <= attr n numbers < 2 ^ loc_bits l).
  { intros i n l I. apply G. exact (nth_error_In _ _ I). }
  unfold header_fits. repeat split;
    try (first [ refine (proj1 (J 0%nat _ _ eq_refl _)); discriminate | refine (proj1 (J 1%nat _ _ eq_refl _)); discriminate
      | refine (proj1 (J 2%nat _ _ eq_refl _)); discriminate | refine (proj1 (J 3%nat _ _ eq_refl _)); discriminate
      | refine (proj1 (J 4%nat _ _ eq_refl _)); discriminate | refine (proj1 (J 5%nat _ _ eq_refl _)); discriminate
      | refine (proj1 (J 7%nat _ _ eq_refl _)); discriminate | refine (proj1 (J 8%nat _ _ eq_refl _)); discriminate
      | refine (proj1 (J 9%nat _ _ eq_refl _)); discriminate | refine (proj1 (J 10%nat _ _ eq_refl _)); discriminate
      | refine (proj1 (J 11%nat _ _ eq_refl _)); discriminate | refine (proj1 (J 12%nat _ _ eq_refl _)); discriminate
      | refine (proj1 (J 13%nat _ _ eq_refl _)); discriminate | refine (proj1 (J 14%nat _ _ eq_refl _)); discriminate
      | refine (proj1 (J 15%nat _ _ eq_refl _)); discriminate | refine (proj1 (J 16%nat _ _ eq_refl _)); discriminate
      | refine (proj1 (J 17%nat _ _ eq_refl _)); discriminate
      | refine (proj2 (J 0%nat _ _ eq_refl _)); discriminate | refine (proj2 (J 1%nat _ _ eq_refl _)); discriminate
      | refine (proj2 (J 2%nat _ _ eq_refl _)); discriminate | refine (proj2 (J 3%nat _ _ eq_refl _)); discriminate
      | refine (proj2 (J 4%nat _ _ eq_refl _)); discriminate | refine (proj2 (J 5%nat _ _ eq_refl _)); discriminate
      | refine (proj2 (J 7%nat _ _ eq_refl _)); discriminate | refine (proj2 (J 8%nat _ _ eq_refl _)); discriminate
      | refine (proj2 (J 9%nat _ _ eq_refl _)); discriminate | refine (proj2 (J 10%nat _ _ eq_refl _)); discriminate
      | refine (proj2 (J 11%nat _ _ eq_refl _)); discriminate | refine (proj2 (J 12%nat _ _ eq_refl _)); discriminate
      | refine (proj2 (J 13%nat _ _ eq_refl _)); discriminate | refine (proj2 (J 14%nat _ _ eq_refl _)); discriminate
      | refine (proj2 (J 15%nat _ _ eq_refl _)); discriminate | refine (proj2 (J 16%nat _ _ eq_refl _)); discriminate
      | refine (proj2 (J 17%nat _ _ eq_refl _)); discriminate
      | exact (proj1 B) | exact (proj2 B) ]).
Qed.

(** The field of a place. *)
Definition bits_at (l : loc) : list bitpos :=
  match l with Num a b => bytes_of a b | Bits k lo w => bits_of k lo (lo + w) | _ => [] end.
Lemma numbers_places : map (fun f => (f_name f, f_bits f)) standard_inquiry_numbers =
  map (fun e => (fst e, bits_at (snd e))) standard_inquiry_layout.
Proof. reflexivity. Qed.
Lemma loc_read : forall e buf, In e standard_inquiry_layout -> bytes_ok buf -> (8 <= length buf)%nat ->
  bits_value (map (bit_at buf) (bits_at (snd e))) = loc_value (snd e) buf.
Proof.
  intros e buf I O L. cbn [In standard_inquiry_layout] in I.
  repeat (destruct I as [<-|I]; [cbn [snd bits_at flag loc_value]; unfold flag; cbn [bits_at loc_value];
    first [apply bits_read_bf; [exact O|lia] | apply bytes_of_read; [lia|lia|exact O]]|]). contradiction.
Qed.
Lemma numbers_image : forall len numbers, numbers_fit numbers -> below 8 len ->
  image 8 standard_inquiry_numbers (("additional_length", len) :: numbers) = header 0 len (fun k => attr k numbers).
Proof.
  intros len numbers F B. set (a := ("additional_length", len) :: numbers).
  pose proof (fits_header len numbers F B) as H.
  assert (O : bytes_ok (header 0 len (fun k => attr k numbers))) by (apply header_ok; [unfold byte_ok; lia|exact H]).
  apply (image_same _ _ _ ((0, 0, 8) :: unused_bits)%nat); try reflexivity; [exact O| |].
  - intros f I.
    assert (J : In (f_name f, f_bits f) (map (fun e => (fst e, bits_at (snd e))) standard_inquiry_layout))
      by (rewrite <- numbers_places; apply in_map_iff; exists f; auto).
    apply in_map_iff in J. destruct J as (e & E & J). injection E as E1 E2. rewrite <- E2.
    rewrite loc_read by (try assumption; cbn; lia).
    rewrite <- (app_nil_r (header _ _ _)). rewrite header_value_at by assumption.
    rewrite code_table.
    + rewrite <- E1. unfold header_value, attr, a. cbn [lookup]. destruct (String.eqb (fst e) "additional_length"); reflexivity.
    + cbn [In standard_inquiry_numbers] in I. repeat (destruct I as [<-|I]; [reflexivity|]). contradiction.
    + pose proof (proj2 (numbers_packable len numbers) (conj F B)) as P. rewrite packable_table in P.
      2:{ intros g K. cbn [In standard_inquiry_numbers] in K. repeat (destruct K as [<-|K]; [split; reflexivity|]). contradiction. }
      apply P. apply in_map_iff. exists f. auto.
  - intros k lo w [E|I].
    + injection E as <- <- <-. reflexivity.
    + rewrite <- (app_nil_r (header _ _ _)). apply header_unused; assumption.
Qed.

Lemma pack_text_cases : forall n s, (length s <= n)%nat /\ pack_text 32 n s = Ok (blanks n s) \/
  ~ (length s <= n)%nat /\ pack_text 32 n s = Err EInstruct.
Proof.
  intros n s. unfold pack_text. destruct (Nat.leb_spec (length s) n); [left|right]; split; try lia; reflexivity.
Qed.

Definition pack_content (c : inquiry_content) : result bytes :=
  pack_standard_inquiry (i_type c) (i_qualifier c) (i_numbers c) (i_vendor c) (i_product c) (i_revision c) (i_extended c).

Lemma packed_parts : forall c, in_place c ->
  match i_extended c with None => True | Some e => extension_fits e end /\
    match i_extended c with None => Ok [] | Some e => pack_extended e end = Ok (extension_of c) \/
  ~ match i_extended c with None => True | Some e => extension_fits e end /\
    match i_extended c with None => Ok [] | Some e => pack_extended e end = Err EInstruct.
Proof.
  intros c P. unfold extension_of, in_place in *. destruct (i_extended c) as [e|]; [|left; split; [exact Logic.I|reflexivity]].
  destruct (pack_extended_cases e) as [[A E]|[A E]]; [left|right]; split; auto. rewrite E, packed_extension_spec by tauto. reflexivity.
Qed.

Lemma pack_content_spec : forall c, in_place c ->
  (content_fits c -> pack_content c = Ok (standard_bytes c)) /\ (~ content_fits c -> pack_content c = Err EInstruct).
Proof.
  intros c P. unfold pack_content, pack_standard_inquiry, pack_buffer, content_fits. rewrite !pack_fields_spec.
  destruct (packable peripheral_device_fields _) eqn:K1.
  2:{ cbn [bind]. split; [|reflexivity]. intros (A & B & _). rewrite (proj2 (peripheral_packable _ _) (conj A B)) in K1. discriminate. }
  apply peripheral_packable in K1. cbn [bind].
  change (buffer_size peripheral_device_fields) with 1%nat. rewrite peripheral_image by tauto.
  destruct (packed_parts c P) as [[F ->]|[F ->]]; cbn [bind]; [|split; [tauto|reflexivity]].
  rewrite pack_fields_spec. set (len := 31 + zlen (extension_of c)).
  assert (LB : below 8 len <-> zlen (extension_of c) <= 224) by (unfold below, len, zlen; change (2 ^ 8) with 256; lia).
  destruct (packable standard_inquiry_numbers _) eqn:K2.
  2:{ cbn [bind]. split; [|reflexivity]. intros (_ & _ & A & _ & _ & B). apply LB in B.
      rewrite (proj2 (numbers_packable _ _) (conj A B)) in K2. discriminate. }
  apply numbers_packable in K2. cbn [bind]. rewrite numbers_image by tauto.
  destruct (pack_text_cases 8 (i_vendor c)) as [[T1 ->]|[T1 ->]]; cbn [bind]; [|split; [tauto|reflexivity]].
  destruct (pack_text_cases 16 (i_product c)) as [[T2 ->]|[T2 ->]]; cbn [bind]; [|split; [tauto|reflexivity]].
  destruct (pack_text_cases 4 (i_revision c)) as [[T3 ->]|[T3 ->]]; cbn [bind]; [|split; [tauto|reflexivity]].
  split; [reflexivity|]. intros N. exfalso. tauto.
Qed.

(** * Reading back *)
Lemma blanks_length : forall n s, (length s <= n)%nat -> length (blanks n s) = n.
Proof. intros n s L. unfold blanks. rewrite app_length, repeat_length. lia. Qed.
Lemma blanks_ok : forall n s, bytes_ok s -> bytes_ok (blanks n s).
Proof.
  intros n s O. unfold blanks. apply Forall_app. split; [exact O|]. apply Forall_forall. intros x I. apply repeat_spec in I. subst x. unfold byte_ok. lia.
Qed.
Lemma zeros_ok : forall n, bytes_ok (zeros n).
Proof. intros n. apply Forall_forall. intros x I. apply repeat_spec in I. subst x. unfold byte_ok. lia. Qed.
Lemma extension_ok : forall e, extension_fits e -> bytes_ok (vendor_specific_1 e) ->
  match vendor_specific_2 e with None => True | Some v => bytes_ok v end -> bytes_ok (extension e).
Proof.
  intros e (I1 & Q1 & C1 & _) O1 O2. unfold below in *. change (2 ^ 1) with 2 in *. change (2 ^ 2) with 4 in *.
  unfold extension. apply Forall_app. split; [exact O1|]. apply Forall_app. split; [apply zeros_ok|].
  apply Forall_cons; [unfold byte_ok; lia|]. apply Forall_cons; [unfold byte_ok; lia|].
  apply Forall_app. split; [apply flat_be_ok|]. destruct (vendor_specific_2 e) as [v|]; [|constructor].
  apply Forall_app. split; [apply zeros_ok|exact O2].
Qed.
Lemma extension_length : forall e, (length (vendor_specific_1 e) <= 20)%nat -> (length (version_descriptors e) <= 8)%nat ->
  length (extension e) = match vendor_specific_2 e with
                         | None => (22 + 2 * length (version_descriptors e))%nat | Some v => (60 + length v)%nat end.
Proof.
  intros e L1 L2. unfold extension. rewrite !app_length, flat_be_length, zeros_length. cbn [length].
  destruct (vendor_specific_2 e) as [v|]; cbn [length]; [rewrite app_length, zeros_length|]; lia.
Qed.
Lemma descriptor_read : forall l k rest, Forall (below 16) l -> (k < length l)%nat ->
  ub (2 * k) (2 + 2 * k) (flat_map (be_bytes 2) l ++ rest) = nth k l 0.
Proof.
  induction l as [|v r IH]; intros k rest F L; [cbn in L; lia|]. inversion F as [|? ? B F']; subst.
  destruct k as [|k].
  - unfold ub. cbn [flat_map]. rewrite <- app_assoc. rewrite (slice0 2) by apply be_bytes_length.
    rewrite be_val_be_bytes_small; [reflexivity|]. exact B.
  - cbn [nth]. cbn [length] in L. rewrite <- (IH k rest F') by lia. unfold ub. f_equal. cbn [flat_map]. rewrite <- app_assoc.
    unfold slice. replace (2 + 2 * Datatypes.S k - 2 * Datatypes.S k)%nat with 2%nat by lia.
    replace (2 + 2 * k - 2 * k)%nat with 2%nat by lia. replace (2 * Datatypes.S k)%nat with (Datatypes.S (Datatypes.S (2 * k))) by lia. reflexivity.
Qed.
Lemma ub_behind : forall (p : bytes) a b r, ub (length p + a) (length p + b) (p ++ r) = ub a b r.
Proof.
  intros p a b r. unfold ub, slice. f_equal. replace (length p + b - (length p + a))%nat with (b - a)%nat by lia. f_equal.
  rewrite skipn_app. rewrite skipn_all2 by lia. replace (length p + a - length p)%nat with a by lia. reflexivity.
Qed.
Lemma map_seq_nth : forall A (f : nat -> A) (l : list Z) (g : Z -> A),
  (forall k, (k < length l)%nat -> f k = g (nth k l 0)) -> map f (seq 0 (length l)) = map g l.
Proof.
  intros A f l g. revert f. induction l as [|x r IH]; intros f H; [reflexivity|]. cbn [length seq map]. f_equal.
  - apply (H 0%nat). cbn. lia.
  - rewrite <- seq_shift, map_map. apply IH. intros k K. apply (H (Datatypes.S k)). cbn. lia.
Qed.
Lemma descriptors_read : forall pre l rest, length pre = 58%nat -> Forall (below 16) l ->
  map (fun k => PInt (version_descriptor k (pre ++ flat_map (be_bytes 2) l ++ rest))) (seq 0 (length l)) = map PInt l.
Proof.
  intros pre l rest L F. apply map_seq_nth. intros k K. f_equal. unfold version_descriptor.
  replace (60 + 2 * k)%nat with (length pre + (2 + 2 * k))%nat by lia. rewrite <- L. rewrite ub_behind. apply descriptor_read; assumption.
Qed.
Lemma flat_zeros : forall n, flat_map (be_bytes 2) (repeat 0 n) = zeros (2 * n).
Proof.
  induction n as [|n IH]; [reflexivity|]. cbn [repeat flat_map]. rewrite IH.
  replace (2 * Datatypes.S n)%nat with (Datatypes.S (Datatypes.S (2 * n))) by lia. reflexivity.
Qed.

Lemma extension_object_read : forall pre e, length pre = 36%nat -> ub 4 5 pre = 31 + zlen (extension e) -> bytes_ok pre ->
  extension_fits e -> (length (vendor_specific_1 e) <= 20)%nat -> (length (version_descriptors e) <= 8)%nat ->
  extended_object (pre ++ extension e) = extension_read e.
Proof.
  intros pre e L U O (FI & FQ & FC & FD) L1 L2. pose proof (extension_length e L1 L2) as LE.
  set (buf := pre ++ extension e).
  assert (LB : length buf = (36 + length (extension e))%nat) by (unfold buf; rewrite app_length; lia).
  assert (UB : ub 4 5 buf = 31 + zlen (extension e)).
  { rewrite <- U. unfold buf, ub, slice. f_equal. cbn [Nat.sub]. rewrite skipn_app, firstn_app.
    rewrite skipn_length. replace (1 - (length pre - 4))%nat with 0%nat by lia. apply app_nil_r. }
  assert (N : inquiry_end buf = length buf) by (unfold inquiry_end; rewrite UB, LB; unfold zlen; lia).
  set (a := vendor_specific_1 e ++ zeros (20 - length (vendor_specific_1 e))).
  assert (LA : length a = 20%nat) by (unfold a; rewrite app_length, zeros_length; lia).
  set (x := ius e + 2 * qas e + 4 * clocking e).
  assert (SH : exists t, buf = (pre ++ a ++ [x; 0]) ++ t).
  { eexists. unfold buf, extension. fold x. unfold a. rewrite <- !app_assoc. reflexivity. }
  assert (G : (58 <= length buf)%nat) by (rewrite LB, LE; destruct (vendor_specific_2 e); lia).
  unfold extended_object. rewrite N. rewrite Nat.min_l by lia.
  destruct (Nat.leb_spec 57 (length buf)); [|lia]. cbn [when].
  assert (X : byte_at 56 buf = x).
  { destruct SH as (t & ->). unfold byte_at. rewrite app_nth1 by (rewrite !app_length, L, LA; cbn; lia).
    rewrite app_nth2 by lia. rewrite app_nth2 by (rewrite L, LA; lia). rewrite L, LA. reflexivity. }
  assert (A : slice 36 56 buf = a).
  { destruct SH as (t & ->). rewrite <- !app_assoc. apply SesFacts.slice_in; lia. }
  rewrite A. unfold bf. rewrite X. unfold extension_read. fold a.
  unfold below in FI, FQ, FC. change (2 ^ 1) with 2 in *. change (2 ^ 2) with 4 in *.
  change (2 ^ Z.of_nat 0) with 1. change (2 ^ Z.of_nat 1) with 2. change (2 ^ Z.of_nat 2) with 4.
  replace (x / 1 mod 2) with (ius e) by (unfold x; Z.to_euclidean_division_equations; lia).
  replace (x / 2 mod 2) with (qas e) by (unfold x; Z.to_euclidean_division_equations; lia).
  replace (x / 4 mod 4) with (clocking e) by (unfold x; Z.to_euclidean_division_equations; lia).
  set (p := pre ++ a ++ [x; 0]) in *. assert (LP : length p = 58%nat) by (unfold p; rewrite !app_length, L, LA; reflexivity).
  destruct (vendor_specific_2 e) as [v|] eqn:V.
  - assert (E : buf = p ++ flat_map (be_bytes 2) (version_descriptors e ++ repeat 0 (8 - length (version_descriptors e))) ++ zeros 22 ++ v).
    { assert (Z : zeros (38 - 2 * length (version_descriptors e)) = zeros (2 * (8 - length (version_descriptors e))) ++ zeros 22).
      { unfold zeros. rewrite <- repeat_app. f_equal. lia. }
      unfold buf, extension. rewrite V. fold x. unfold p, a. rewrite flat_map_app, flat_zeros, Z, <- !app_assoc. reflexivity. }
    destruct (Nat.leb_spec 60 (length buf)); [|lia]. cbn [when].
    assert (LD : length (version_descriptors e ++ repeat 0 (8 - length (version_descriptors e))) = 8%nat) by (rewrite app_length, repeat_length; lia).
    assert (M : Nat.min 8 ((length buf - 58) / 2) = 8%nat).
    { apply Nat.min_l. apply Nat.div_le_lower_bound; lia. }
    rewrite M.
    assert (DR : map (fun k => PInt (version_descriptor k buf)) (seq 0 8) =
                 map PInt (version_descriptors e ++ repeat 0 (8 - length (version_descriptors e)))).
    { rewrite <- LD at 1. rewrite E. apply descriptors_read; [exact LP|].
      apply Forall_app. split; [exact FD|]. apply Forall_forall. intros y I. apply repeat_spec in I. subst y. unfold below. lia. }
    rewrite DR.
    assert (S2 : slice 96 (length buf) buf = v).
    { rewrite slice_all by lia. rewrite E, !app_assoc. rewrite skipn_app. rewrite skipn_all2.
      - rewrite !app_length, flat_be_length, LD, zeros_length, LP. reflexivity.
      - rewrite !app_length, flat_be_length, LD, zeros_length, LP. lia. }
    rewrite S2. rewrite LB, LE. destruct v as [|b r]; reflexivity.
  - assert (E : buf = p ++ flat_map (be_bytes 2) (version_descriptors e) ++ []).
    { unfold buf, extension. rewrite V. fold x. unfold p, a. rewrite <- !app_assoc. reflexivity. }
    destruct (Nat.leb_spec 97 (length buf)); [lia|]. cbn [when].
    assert (M : Nat.min 8 ((length buf - 58) / 2) = length (version_descriptors e)).
    { rewrite LB, LE. replace (36 + (22 + 2 * length (version_descriptors e)) - 58)%nat with (length (version_descriptors e) * 2)%nat by lia.
      rewrite Nat.div_mul by lia. lia. }
    rewrite M.
    assert (DR : map (fun k => PInt (version_descriptor k buf)) (seq 0 (length (version_descriptors e))) = map PInt (version_descriptors e)).
    { rewrite E. apply descriptors_read; assumption. }
    rewrite DR.
    destruct (version_descriptors e) as [|d r] eqn:D.
    + destruct (Nat.leb_spec 60 (length buf)); [rewrite LB, LE in *; cbn in *; lia|]. reflexivity.
    + destruct (Nat.leb_spec 60 (length buf)); [|rewrite LB, LE in *; cbn in *; lia]. reflexivity.
Qed.

Definition texts (c : inquiry_content) : bytes := blanks 8 (i_vendor c) ++ blanks 16 (i_product c) ++ blanks 4 (i_revision c).
Lemma standard_bytes_parts : forall c, standard_bytes c =
  (header (i_type c + 32 * i_qualifier c) (31 + zlen (extension_of c)) (fun k => attr k (i_numbers c)) ++ texts c) ++ extension_of c.
Proof. intros c. unfold texts. rewrite <- !app_assoc. reflexivity. Qed.

Lemma content_read_back : forall c, in_place c -> content_fits c -> content_ok c -> no_padding c ->
  unpack standard_inquiry_data (standard_bytes c) = Ok (content_read c).
Proof.
  intros c P (T & Q & F & (V1 & V2 & V3) & X & Z) (O1 & O2 & O3 & OX) (N1 & N2 & N3).
  set (len := 31 + zlen (extension_of c)). set (n := fun k => attr k (i_numbers c)).
  assert (B8 : below 8 len) by (unfold below, len, zlen in *; change (2 ^ 8) with 256; lia).
  pose proof (fits_header len (i_numbers c) F B8) as HF. fold n in HF.
  unfold below in T, Q. change (2 ^ 5) with 32 in T. change (2 ^ 3) with 8 in Q.
  set (h := header (i_type c + 32 * i_qualifier c) len n).
  assert (OH : bytes_ok h) by (apply header_ok; [unfold byte_ok; lia|exact HF]).
  assert (OT : bytes_ok (texts c)) by (unfold texts; apply Forall_app; split; [apply blanks_ok; exact O1|]; apply Forall_app; split; apply blanks_ok; assumption).
  assert (OE : bytes_ok (extension_of c)).
  { unfold extension_of, content_ok in *. destruct (i_extended c) as [e|]; [|constructor]. apply extension_ok; tauto. }
  assert (LT : length (texts c) = 28%nat) by (unfold texts; rewrite !app_length, !blanks_length by assumption; reflexivity).
  rewrite standard_bytes_parts. fold len n h.
  set (buf := (h ++ texts c) ++ extension_of c).
  assert (OB : bytes_ok buf) by (apply Forall_app; split; [apply Forall_app; split|]; assumption).
  rewrite standard_inquiry_spec by exact OB.
  assert (LB : length buf = (36 + length (extension_of c))%nat) by (unfold buf; rewrite !app_length, LT; reflexivity).
  destruct (Nat.leb_spec 8 (length buf)); [|lia]. f_equal. unfold standard_inquiry_object, content_read. f_equal.
  assert (BH : exists t, buf = h ++ t) by (exists (texts c ++ extension_of c); unfold buf; rewrite <- app_assoc; reflexivity).
  f_equal.
  { unfold peripheral_value. do 2 f_equal. unfold layout_values, peripheral_layout. cbn [map fst snd loc_value].
    destruct BH as (t & ->). unfold h. do 2 f_equal; [|f_equal]; do 2 f_equal; cbn [header app]; read_header. }
  f_equal.
  { unfold layout_values. apply map_ext_in. intros e I. do 2 f_equal. destruct BH as (t & ->). unfold h.
    rewrite header_value_at by assumption. reflexivity. }
  assert (S1 : slice 8 16 buf = blanks 8 (i_vendor c)).
  { unfold buf, texts. rewrite <- !app_assoc. apply SesFacts.slice_in; [reflexivity|apply blanks_length; assumption]. }
  assert (S2 : slice 16 32 buf = blanks 16 (i_product c)).
  { unfold buf, texts. rewrite <- !app_assoc, (app_assoc h). apply SesFacts.slice_in; [rewrite app_length, blanks_length by assumption; reflexivity|apply blanks_length; assumption]. }
  assert (S3 : slice 32 36 buf = blanks 4 (i_revision c)).
  { unfold buf, texts. rewrite <- !app_assoc, (app_assoc h), (app_assoc (h ++ _)). apply SesFacts.slice_in; [rewrite !app_length, !blanks_length by assumption; reflexivity|apply blanks_length; assumption]. }
  rewrite S1, S2, S3. unfold blanks. rewrite !strip_padded by assumption.
  assert (U : ub 4 5 buf = len) by (rewrite byte_at_ub; reflexivity).
  rewrite U. do 4 f_equal. f_equal. unfold extension_of in *. unfold in_place in P. destruct (i_extended c) as [e|] eqn:XE.
  - assert (W : (31 <? len) = true).
    { apply Z.ltb_lt. unfold len, zlen. rewrite extension_length by tauto. destruct (vendor_specific_2 e); lia. }
    rewrite W. cbn [when]. f_equal. unfold buf. apply extension_object_read; try tauto.
    + rewrite app_length, LT. reflexivity.
    + apply Forall_app; split; assumption.
  - reflexivity.
Qed.

(** * Packing again what was read *)
Lemma strip_length : forall s, (length (strip s) <= length s)%nat.
Proof.
  intros s. unfold strip. rewrite rev_length. rewrite <- (rev_length s). induction (rev s) as [|b r IH]; [cbn; lia|].
  cbn [drop_pad]. destruct (is_pad b); cbn [length] in *; lia.
Qed.
Lemma slice_app : forall a b c (l : bytes), (a <= b)%nat -> (b <= c)%nat -> slice a b l ++ slice b c l = slice a c l.
Proof.
  intros a b c l A B. unfold slice. replace (c - a)%nat with ((b - a) + (c - b))%nat by lia.
  rewrite <- (firstn_skipn (b - a) (firstn (b - a + (c - b)) (skipn a l))). rewrite firstn_firstn, Nat.min_l by lia. f_equal.
  rewrite skipn_firstn_comm. replace (b - a + (c - b) - (b - a))%nat with (c - b)%nat by lia. f_equal.
  rewrite skipn_skipn'. f_equal. lia.
Qed.

Lemma descriptor_bytes_again : forall buf j, bytes_ok buf -> (58 + 2 * j <= length buf)%nat ->
  flat_map (be_bytes 2) (map (fun k => version_descriptor k buf) (seq 0 j)) = slice 58 (58 + 2 * j) buf.
Proof.
  intros buf j O. induction j as [|j IH]; intros L; [reflexivity|].
  rewrite seq_S, map_app, flat_map_app, IH by lia. rewrite Nat.add_0_l. cbn [map flat_map]. rewrite app_nil_r.
  unfold version_descriptor. replace (58 + 2 * Datatypes.S j)%nat with (60 + 2 * j)%nat by lia.
  rewrite <- (slice_app 58 (58 + 2 * j) (60 + 2 * j)) by lia. f_equal.
  unfold ub. assert (L2 : length (slice (58 + 2 * j) (60 + 2 * j) buf) = 2%nat) by (rewrite slice_length; lia).
  rewrite <- L2 at 1. apply be_bytes_be_val. apply slice_ok. exact O.
Qed.
Lemma plain_extension : forall buf, plain buf -> extension_of (content_of buf) = skipn 36 buf /\ in_place (content_of buf) /\
  match i_extended (content_of buf) with None => True | Some e => extension_fits e end.
Proof.
  intros buf (O & Z & _ & _ & _ & _ & C). unfold extension_of, in_place, content_of. cbn [i_extended].
  assert (U : ub 4 5 buf = zlen buf - 5) by lia. rewrite U. destruct C as [L | (L & B4 & B57 & C)].
  - unfold zlen. rewrite L. change (31 <? Z.of_nat 36 - 5) with false. cbv iota. rewrite skipn_all2 by lia. auto.
  - replace (31 <? zlen buf - 5) with true by (symmetry; apply Z.ltb_lt; unfold zlen; lia).
    set (e := Extended _ _ _ _ _ _).
    assert (LV : length (vendor_specific_1 e) = 20%nat) by (cbn [e vendor_specific_1]; rewrite slice_length; lia).
    assert (B56 : byte_ok (byte_at 56 buf)) by (apply byte_at_ok; exact O). unfold byte_ok in B56.
    assert (FL : ius e + 2 * qas e + 4 * clocking e = byte_at 56 buf).
    { cbn [e ius qas clocking]. revert B4. unfold bf. change (2 ^ Z.of_nat 0) with 1. change (2 ^ Z.of_nat 1) with 2.
      change (2 ^ Z.of_nat 2) with 4. change (2 ^ Z.of_nat 4) with 16. intros B4. Z.to_euclidean_division_equations. lia. }
    assert (MN : (Nat.min 8 ((length buf - 58) / 2) <= 8)%nat) by lia.
    assert (LD : length (version_descriptors e) = Nat.min 8 ((length buf - 58) / 2)) by (cbn [e version_descriptors]; rewrite map_length, seq_length; reflexivity).
    assert (B : bytes_ok (slice 56 58 buf)) by (apply slice_ok; exact O).
    assert (S2 : slice 56 58 buf = [byte_at 56 buf; 0]).
    { rewrite <- B57. rewrite (slice_snoc 56 57) by lia. rewrite (slice_snoc 56 56) by lia. unfold slice. rewrite Nat.sub_diag. reflexivity. }
    split; [|split].
    + unfold extension. rewrite LV, LD, FL. change (zeros (20 - 20)) with (@nil BinNums.Z). rewrite app_nil_l.
      assert (SK : skipn 36 buf = slice 36 (length buf) buf) by (rewrite slice_all by lia; reflexivity).
      rewrite SK. rewrite <- (slice_app 36 56 (length buf)) by lia. rewrite <- (slice_app 56 58 (length buf)) by lia. rewrite S2.
      cbn [e vendor_specific_1 version_descriptors vendor_specific_2]. f_equal. cbn [app]. do 2 f_equal.
      destruct C as [(L2 & EV) | (L2 & Z22)].
      * destruct (Nat.leb_spec 97 (length buf)); [lia|].
        apply Nat.even_spec in EV. destruct EV as (h & EV).
        assert (M : Nat.min 8 ((length buf - 58) / 2) = (h - 29)%nat).
        { replace (length buf - 58)%nat with ((h - 29) * 2)%nat by lia. rewrite Nat.div_mul by lia. lia. }
        rewrite M. rewrite descriptor_bytes_again by (auto; lia). rewrite app_nil_r. f_equal. lia.
      * destruct (Nat.leb_spec 97 (length buf)); [|lia].
        assert (M : Nat.min 8 ((length buf - 58) / 2) = 8%nat) by (apply Nat.min_l; apply Nat.div_le_lower_bound; lia).
        rewrite M. rewrite descriptor_bytes_again by (auto; lia). change (zeros (38 - 2 * 8)) with (zeros 22). rewrite <- Z22.
        change (58 + 2 * 8)%nat with 74%nat. rewrite slice_app, slice_app by lia. reflexivity.
    + rewrite LV, LD. lia.
    + unfold extension_fits. cbn [e ius qas clocking version_descriptors].
      assert (G : forall k lo w, below (Z.of_nat w) (bf k lo w buf)) by (intros; apply Z.mod_pos_bound; apply Z.pow_pos_nonneg; lia).
      split; [exact (G 56 0 1)%nat|]. split; [exact (G 56 1 1)%nat|]. split; [exact (G 56 2 2)%nat|].
      apply Forall_forall. intros d I. apply in_map_iff in I. destruct I as (k & <- & I). unfold version_descriptor.
      unfold ub, below. pose proof (be_val_bounds (slice (58 + 2 * k) (60 + 2 * k) buf) (slice_ok _ _ _ O)) as R.
      assert (SL : (length (slice (58 + 2 * k) (60 + 2 * k) buf) <= 2)%nat) by (rewrite slice_length; lia).
      change (2 ^ 16) with (256 ^ 2). split; [lia|]. eapply Z.lt_le_trans; [apply R|]. unfold zlen. apply Z.pow_le_mono_r; lia.
Qed.

Lemma layout_attr : forall buf e, In e standard_inquiry_layout ->
  attr (fst e) (map (fun e => (fst e, loc_value (snd e) buf)) standard_inquiry_layout) = loc_value (snd e) buf /\
  lookup (fst e) (map (fun e => (fst e, loc_value (snd e) buf)) standard_inquiry_layout) = Some (loc_value (snd e) buf).
Proof.
  intros buf e I. cbn [In standard_inquiry_layout] in I. repeat (destruct I as [<-|I]; [split; reflexivity|]). contradiction.
Qed.
Lemma plain_numbers : forall buf, plain buf -> numbers_fit (i_numbers (content_of buf)).
Proof.
  intros buf (O & _) n l I _. exists (loc_value l buf). split; [exact (proj2 (layout_attr buf (n, l) I))|].
  cbn [In standard_inquiry_layout] in I.
  assert (G : forall k lo w, below (Z.of_nat w) (bf k lo w buf)) by (intros; apply Z.mod_pos_bound; apply Z.pow_pos_nonneg; lia).
  assert (H : forall k, below 8 (ub k (S k) buf)) by (intros k; rewrite byte_at_ub; exact (byte_at_ok k buf O)).
  repeat (destruct I as [E|I]; [injection E as <- <-; first [apply G | apply H]|]). contradiction.
Qed.
Lemma eight_bytes : forall buf, (8 <= length buf)%nat ->
  slice 0 8 buf = [byte_at 0 buf; byte_at 1 buf; byte_at 2 buf; byte_at 3 buf; byte_at 4 buf; byte_at 5 buf; byte_at 6 buf; byte_at 7 buf].
Proof.
  intros buf L. do 8 (destruct buf as [|? buf]; [cbn in L; lia|]). reflexivity.
Qed.
Lemma plain_header : forall buf, plain buf ->
  header (bf 0 0 5 buf + 32 * bf 0 5 3 buf) (ub 4 5 buf) (fun k => attr k (i_numbers (content_of buf))) = slice 0 8 buf.
Proof.
  intros buf (O & Z & U & _ & _ & _ & C). rewrite eight_bytes by (destruct C as [C|(C & _)]; lia).
  unfold header, content_of. cbn [i_numbers].
  change (attr _ _) with (bf 1 6 1 buf) at 1.
  repeat match goal with |- context [attr ?k (map ?f ?l)] =>
    let v := eval cbv [attr lookup map standard_inquiry_layout fst snd loc_value flag String.eqb Ascii.eqb Bool.eqb] in (attr k (map f l)) in
    change (attr k (map f l)) with v end.
  rewrite !byte_at_ub.
  assert (B : forall k, 0 <= byte_at k buf < 256) by (intros k; exact (byte_at_ok k buf O)).
  pose proof (U 1 0 6)%nat as U1. pose proof (U 3 6 2)%nat as U3. pose proof (U 5 1 2)%nat as U5. pose proof (U 6 1 3)%nat as U6.
  pose proof (U 6 5 1)%nat as U65. pose proof (U 6 7 1)%nat as U67. pose proof (U 7 0 1)%nat as U7. pose proof (U 7 2 2)%nat as U72. pose proof (U 7 6 2)%nat as U76.
  assert (D1 := U1 ltac:(cbn; tauto)). assert (D3 := U3 ltac:(cbn; tauto)). assert (D5 := U5 ltac:(cbn; tauto)). assert (D6 := U6 ltac:(cbn; tauto)).
  assert (D65 := U65 ltac:(cbn; tauto)). assert (D67 := U67 ltac:(cbn; tauto)). assert (D7 := U7 ltac:(cbn; tauto)). assert (D72 := U72 ltac:(cbn; tauto)).
  assert (D76 := U76 ltac:(cbn; tauto)). clear U U1 U3 U5 U6 U65 U67 U7 U72 U76.
  unfold bf in *.
  repeat match goal with
    | |- context [2 ^ Z.of_nat ?k] => let v := eval compute in (2 ^ Z.of_nat k) in change (2 ^ Z.of_nat k) with v
    | H : context [2 ^ Z.of_nat ?k] |- _ => let v := eval compute in (2 ^ Z.of_nat k) in change (2 ^ Z.of_nat k) with v in H end.
  f_equal; [clear - B; specialize (B 0%nat); Z.to_euclidean_division_equations; lia|].
  f_equal; [clear - B D1; specialize (B 1%nat); Z.to_euclidean_division_equations; lia|].
  f_equal. f_equal; [clear - B D3; specialize (B 3%nat); Z.to_euclidean_division_equations; lia|].
  f_equal. f_equal; [clear - B D5; specialize (B 5%nat); Z.to_euclidean_division_equations; lia|].
  f_equal; [clear - B D6 D65 D67; specialize (B 6%nat); Z.to_euclidean_division_equations; lia|].
  f_equal. clear - B D7 D72 D76; specialize (B 7%nat); Z.to_euclidean_division_equations; lia.
Qed.

Lemma plain_again : forall buf, plain buf -> pack_content (content_of buf) = Ok buf.
Proof.
  intros buf PL. destruct (plain_extension buf PL) as (X & IP & XF). pose proof (plain_header buf PL) as HD. pose proof (plain_numbers buf PL) as NF.
  destruct PL as (O & Z & _ & B1 & B2 & B3 & C).
  assert (L : (36 <= length buf)%nat) by (destruct C as [C|(C & _)]; lia).
  assert (ZX : zlen (extension_of (content_of buf)) = ub 4 5 buf - 31) by (rewrite X; unfold zlen in *; rewrite skipn_length; lia).
  assert (L8 : forall a b, (b <= 36)%nat -> (a <= b)%nat -> length (slice a b buf) = (b - a)%nat) by (intros; rewrite slice_length; lia).
  assert (R4 : ub 4 5 buf < 256) by (rewrite byte_at_ub; exact (proj2 (byte_at_ok 4 buf O))).
  assert (F : content_fits (content_of buf)).
  { unfold content_fits.
    assert (G : forall k lo w, below (Z.of_nat w) (bf k lo w buf)) by (intros; apply Z.mod_pos_bound; apply Z.pow_pos_nonneg; lia).
    split; [exact (G 0 0 5)%nat|]. split; [exact (G 0 5 3)%nat|]. split; [exact NF|]. split; [|split; [exact XF|lia]].
    cbn [content_of i_vendor i_product i_revision].
    pose proof (strip_length (slice 8 16 buf)). pose proof (strip_length (slice 16 32 buf)). pose proof (strip_length (slice 32 36 buf)).
    rewrite L8 in * by lia. lia. }
  rewrite (proj1 (pack_content_spec _ IP) F). f_equal. rewrite standard_bytes_parts, ZX, X.
  replace (31 + (ub 4 5 buf - 31)) with (ub 4 5 buf) by lia.
  change (i_type (content_of buf)) with (bf 0 0 5 buf). change (i_qualifier (content_of buf)) with (bf 0 5 3 buf). rewrite HD.
  unfold texts, blank_padded in *. cbn [content_of i_vendor i_product i_revision]. rewrite L8 in B1, B2, B3 by lia. cbn [Nat.sub] in B1, B2, B3.
  rewrite B1, B2, B3. rewrite (slice_app 16), slice_app, slice_app by lia. unfold slice. cbn [skipn]. rewrite Nat.sub_0_r. apply firstn_skipn.
Qed.

Lemma strip_no_padding : forall s, ~ ends_in_padding (strip s).
Proof.
  intros s (r & b & E & B). unfold strip in E.
  assert (F : drop_pad (rev s) = b :: rev r).
  { rewrite <- (rev_involutive (drop_pad (rev s))), E, rev_app_distr. reflexivity. }
  induction (rev s) as [|x l IH]; [discriminate F|]. cbn [drop_pad] in *. destruct (is_pad x) eqn:P; [apply IH; assumption|].
  injection F as -> _. destruct B as [-> | ->]; discriminate P.
Qed.
Lemma strip_ok : forall s, bytes_ok s -> bytes_ok (strip s).
Proof.
  intros s O. unfold strip. apply Forall_rev. apply Forall_rev in O. revert O. unfold bytes_ok. induction (rev s) as [|x l IH]; intros O; [constructor|].
  cbn [drop_pad]. destruct (is_pad x); [inversion O; auto|exact O].
Qed.
Lemma plain_read : forall buf, plain buf -> unpack standard_inquiry_data buf = Ok (content_read (content_of buf)).
Proof.
  intros buf PL. pose proof (plain_again buf PL) as A. destruct (plain_extension buf PL) as (X & IP & XF).
  destruct (pack_content_spec _ IP) as (F & N).
  assert (CF : content_fits (content_of buf)).
  { unfold content_fits. unfold pack_content, pack_standard_inquiry, pack_buffer in A. rewrite !pack_fields_spec in A.
    destruct (packable peripheral_device_fields _) eqn:K1; [|discriminate]. apply peripheral_packable in K1. cbn [bind] in A.
    destruct (packed_parts _ IP) as [[G E]|[G E]]; rewrite E in A; cbn [bind] in A; [|discriminate]. rewrite pack_fields_spec in A.
    destruct (packable standard_inquiry_numbers _) eqn:K2; [|discriminate]. apply numbers_packable in K2. cbn [bind] in A.
    destruct (pack_text_cases 8 (i_vendor (content_of buf))) as [[T1 E1]|[T1 E1]]; rewrite E1 in A; cbn [bind] in A; [|discriminate].
    destruct (pack_text_cases 16 (i_product (content_of buf))) as [[T2 E2]|[T2 E2]]; rewrite E2 in A; cbn [bind] in A; [|discriminate].
    destruct (pack_text_cases 4 (i_revision (content_of buf))) as [[T3 E3]|[T3 E3]]; rewrite E3 in A; cbn [bind] in A; [|discriminate].
    destruct K1 as (K1 & K1'). destruct K2 as (K2 & K2'). unfold below in K2'. change (2 ^ 8) with 256 in K2'.
    repeat (split; [assumption || (repeat split; assumption)|]). lia. }
  specialize (F CF). rewrite A in F. injection F as F. rewrite F at 1. apply content_read_back; [exact IP|exact CF| |].
  - destruct PL as (O & _). unfold content_ok, content_of. cbn [i_vendor i_product i_revision i_extended].
    repeat (split; [apply strip_ok, slice_ok; exact O|]). destruct (31 <? ub 4 5 buf); [|exact Logic.I]. cbn [vendor_specific_1 vendor_specific_2].
    split; [apply slice_ok; exact O|]. destruct (97 <=? length buf)%nat; [apply slice_ok; exact O|exact Logic.I].
  - unfold no_padding, content_of. cbn [i_vendor i_product i_revision]. repeat split; apply strip_no_padding.
Qed.
