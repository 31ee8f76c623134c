(** Lemmas about structures in memory. *)
From Coq Require Import String ZArith List Bool Arith Lia.
From Verif Require Import Base BaseFacts OsCommon OsLinux OsSolaris OsAix OsWin32 Ctypes SpecAbi.
Import ListNotations.
Local Open Scope string_scope.
Local Open Scope list_scope.
Local Open Scope Z_scope.

(** A value that a field of the type can hold. *)
Definition fits (t : ctype) (v : cvalue) : Prop :=
  match t, v with
  | Scalar n _ false, CNum z => 0 <= z < 256 ^ Z.of_nat n
  | Scalar n _ true, CNum z => (1 <= n)%nat /\ - (256 ^ Z.of_nat n / 2) <= z < 256 ^ Z.of_nat n / 2
  | ByteArray n, CBytes b => length b = n
  | _, _ => False
  end.

Lemma fits_length : forall fs vs, Forall2 fits fs vs -> length fs = length vs.
Proof. induction 1; cbn; auto. Qed.

Lemma round_up_le : forall o n, (o <= round_up o n)%nat.
Proof. intros. unfold round_up. destruct (o mod n)%nat; lia. Qed.

Lemma zeros_length : forall n, length (zeros n) = n.
Proof. intros. apply repeat_length. Qed.

Lemma store_length : forall a t v, length (store a t v) = size_of t.
Proof.
  intros a [n al sg|n] [z|b]; cbn [store size_of]; try apply zeros_length.
  - destruct (little_endian a); [rewrite rev_length|]; apply be_bytes_length.
  - rewrite firstn_length, app_length, zeros_length. lia.
Qed.

Lemma pow_256 : forall n, 2 ^ (8 * Z.of_nat n) = 256 ^ Z.of_nat n.
Proof. intros. rewrite Z.pow_mul_r by lia. reflexivity. Qed.

Lemma half_256 : forall n, (1 <= n)%nat -> 2 ^ (8 * Z.of_nat n - 1) = 256 ^ Z.of_nat n / 2 /\
  256 ^ Z.of_nat n = 2 * (256 ^ Z.of_nat n / 2).
Proof.
  intros n H. rewrite <- pow_256.
  replace (8 * Z.of_nat n) with (Z.succ (8 * Z.of_nat n - 1)) at 2 3 4 by lia.
  rewrite Z.pow_succ_r by lia.
  assert (E : 2 * 2 ^ (8 * Z.of_nat n - 1) / 2 = 2 ^ (8 * Z.of_nat n - 1)).
  { rewrite Z.mul_comm. apply Z.div_mul. lia. }
  rewrite E. auto.
Qed.

Lemma load_store : forall a t v, fits t v -> load a t (store a t v) = v.
Proof.
  intros a [n al sg|n] [z|b] H; try (cbn in H; destruct sg; contradiction).
  - cbn [store load].
    destruct (little_endian a); cbn iota; rewrite ?rev_involutive, ?be_val_be_bytes; f_equal; destruct sg; cbn [fits] in H;
      try (apply Z.mod_small; auto; fail);
      destruct H as [H1 H2]; destruct (half_256 n H1) as [E1 E2]; unfold c_signed; rewrite pow_256, E1;
      rewrite Zplus_mod_idemp_l; rewrite Z.mod_small by lia; lia.
  - cbn in H. contradiction.
  - cbn [store load]. f_equal. cbn in H. subst n. rewrite firstn_app, Nat.sub_diag, firstn_all, firstn_O. apply app_nil_r.
Qed.

Lemma slice_at : forall (pre x post : bytes), slice (length pre) (length pre + length x) (pre ++ x ++ post) = x.
Proof.
  intros. unfold slice. replace (length pre + length x - length pre)%nat with (length x) by lia.
  rewrite skipn_app, skipn_all, Nat.sub_diag. cbn [skipn app]. rewrite firstn_app, Nat.sub_diag, firstn_all, firstn_O.
  apply app_nil_r.
Qed.

(** What is stored in a field is found at its offset. *)
Lemma fields_read : forall a pack fs vs o pre post, length pre = o -> Forall2 fits fs vs ->
  map (fun p => load a (snd p) (slice (fst p) (fst p + size_of (snd p)) (pre ++ fields_raw a pack o fs vs ++ post)))
    (combine (offsets pack o fs) fs) = vs.
Proof.
  intros a pack fs. induction fs as [|t fs IH]; intros vs o pre post Hp F; inversion F; subst; auto.
  cbn [fields_raw offsets combine map fst snd].
  remember (round_up (length pre) (align_of pack t)) as o'.
  assert (Ho : (length pre <= o')%nat) by (subst o'; apply round_up_le).
  assert (Hl : length (pre ++ zeros (o' - length pre)) = o') by (rewrite app_length, zeros_length; lia).
  f_equal.
  - replace (pre ++ (zeros (o' - length pre) ++ store a t y ++ fields_raw a pack (o' + size_of t) fs l') ++ post)
      with ((pre ++ zeros (o' - length pre)) ++ store a t y ++ fields_raw a pack (o' + size_of t) fs l' ++ post)
      by (rewrite <- !app_assoc; reflexivity).
    rewrite <- Hl at 1 2. rewrite <- (store_length a t y) at 1. rewrite slice_at. apply load_store; auto.
  - replace (pre ++ (zeros (o' - length pre) ++ store a t y ++ fields_raw a pack (o' + size_of t) fs l') ++ post)
      with (((pre ++ zeros (o' - length pre)) ++ store a t y) ++ fields_raw a pack (o' + size_of t) fs l' ++ post)
      by (rewrite <- !app_assoc; reflexivity).
    apply IH; auto. rewrite app_length, Hl, store_length. reflexivity.
Qed.

Lemma fields_raw_length : forall a pack fs vs o, length fs = length vs ->
  (o + length (fields_raw a pack o fs vs))%nat = fields_end pack o fs.
Proof.
  intros a pack fs. induction fs as [|t fs IH]; intros [|v vs] o H; try discriminate; cbn [fields_raw fields_end]; [cbn; lia|].
  rewrite <- (IH vs) by (cbn in H; lia). rewrite !app_length, zeros_length, store_length.
  pose proof (round_up_le o (align_of pack t)). lia.
Qed.

Lemma to_raw_length : forall a pack fs vs, length fs = length vs -> length (to_raw a pack fs vs) = sizeof pack fs.
Proof.
  intros. unfold to_raw. rewrite app_length, zeros_length. pose proof (fields_raw_length a pack fs vs 0 H).
  assert (fields_end pack 0 fs <= sizeof pack fs)%nat by apply round_up_le. lia.
Qed.

Lemma round_trip : forall a pack fs vs, Forall2 fits fs vs -> from_string a pack fs (to_raw a pack fs vs) = Ok vs.
Proof.
  intros. unfold from_string. rewrite to_raw_length by (apply fits_length; auto). rewrite Nat.ltb_irrefl.
  f_equal. unfold to_raw. apply (fields_read a pack fs vs 0 []); auto.
Qed.

(** Reading a field is finding its place. *)
Lemma low_first_be : forall b, low_first (rev b) = be_val b.
Proof.
  intros b. induction b using rev_ind; auto. rewrite rev_app_distr. cbn [rev app low_first].
  rewrite IHb, be_val_app1. lia.
Qed.

Lemma load_found : forall a name o t b, bytes_ok b -> (o + size_of t <= length b)%nat ->
  (kind_of t = Signed -> 1 <= size_of t)%nat ->
  load a t (slice o (o + size_of t) b) = found (little_endian a) (Place name o (size_of t) (kind_of t)) b.
Proof.
  intros a name o t b Hb Hl Hs. unfold found, slice. cbn [place_size place_at place_kind].
  replace (o + size_of t - o)%nat with (size_of t) by lia.
  remember (firstn (size_of t) (skipn o b)) as w.
  assert (Lw : length w = size_of t) by (subst w; rewrite firstn_length, skipn_length; lia).
  assert (Ow : bytes_ok w).
  { subst w. apply Forall_forall. intros x Hx. apply (proj1 (Forall_forall _ _) Hb).
    rewrite <- (firstn_skipn o b). apply in_or_app. right. rewrite <- (firstn_skipn (size_of t) (skipn o b)).
    apply in_or_app. auto. }
  assert (Q : be_val (if little_endian a then rev w else w) = low_first (if little_endian a then w else rev w)).
  { destruct (little_endian a); rewrite <- low_first_be; [rewrite rev_involutive|]; reflexivity. }
  destruct t as [n al sg|n]; cbn [load kind_of size_of] in *; auto.
  rewrite Q. destruct sg; cbn [kind_of] in *; auto. f_equal.
  assert (B : 0 <= low_first (if little_endian a then w else rev w) < 256 ^ Z.of_nat n).
  { rewrite <- Q. replace n with (length (if little_endian a then rev w else w))
      by (destruct (little_endian a); [rewrite rev_length|]; auto).
    apply be_val_bounds. destruct (little_endian a); auto. apply Forall_rev. auto. }
  specialize (Hs eq_refl). destruct (half_256 n Hs) as [E1 E2]. unfold c_signed. rewrite pow_256, E1.
  set (u := low_first _) in *. clearbody u. clear Q. set (m := 256 ^ Z.of_nat n / 2) in *. rewrite E2 in *.
  destruct (Z.ltb_spec u m).
  - rewrite Z.mod_small by lia. lia.
  - replace (u + m) with (u - m + 1 * (2 * m)) by lia. rewrite Z.mod_add by lia. rewrite Z.mod_small by lia. lia.
Qed.

Lemma map_snd_combine : forall (A B C : Type) (f : B -> C) (xs : list A) (ys : list B),
  combine xs (map f ys) = map (fun p => (fst p, f (snd p))) (combine xs ys).
Proof. intros A B C f xs. induction xs; intros [|y ys]; cbn; auto. f_equal; auto. Qed.

Lemma offsets_bound : forall pack fs o p, In p (combine (offsets pack o fs) fs) ->
  (fst p + size_of (snd p) <= fields_end pack o fs)%nat.
Proof.
  assert (M : forall pack fs o, (o <= fields_end pack o fs)%nat).
  { intros pack fs. induction fs; intros; cbn [fields_end]; auto.
    etransitivity; [|apply IHfs]. pose proof (round_up_le o (align_of pack a)). lia. }
  intros pack fs. induction fs as [|t fs IH]; intros o p H; cbn [offsets combine In] in H; [contradiction|].
  cbn [fields_end]. destruct H as [H|H]; [subst p; cbn [fst snd]; apply M|]. apply IH; auto.
Qed.

Lemma parse_found : forall a pack fs b, bytes_ok b -> (sizeof pack (map snd fs) <= length b)%nat ->
  Forall (fun f => kind_of (snd f) = Signed -> (1 <= size_of (snd f))%nat) fs ->
  from_string a pack (map snd fs) b = Ok (map (fun p => found (little_endian a) p b) (places pack fs)).
Proof.
  intros a pack fs b Hb Hl Hs. unfold from_string.
  replace (length b <? sizeof pack (map snd fs))%nat with false by (symmetry; apply Nat.ltb_ge; auto).
  f_equal. unfold places. rewrite map_snd_combine, !map_map. apply map_ext_in. intros [o [name t]] Hin.
  cbn [fst snd]. apply load_found; auto.
  - assert (X : In (o, t) (combine (offsets pack 0 (map snd fs)) (map snd fs))).
    { rewrite map_snd_combine. apply in_map_iff. exists (o, (name, t)). auto. }
    apply offsets_bound in X. cbn [fst snd] in X. etransitivity; [exact X|]. etransitivity; [|exact Hl]. apply round_up_le.
  - apply in_combine_r in Hin. apply (proj1 (Forall_forall _ _) Hs _ Hin).
Qed.

Lemma parse_short : forall a pack fs b, (length b < sizeof pack fs)%nat -> from_string a pack fs b = Err EValue.
Proof. intros. unfold from_string. apply Nat.ltb_lt in H. rewrite H. reflexivity. Qed.

(** Attributes by name. *)
Lemma attribute_of : forall fs pl (f : place -> cvalue), map place_name pl = map fst fs ->
  forall name, attribute name fs (map f pl) = match member name pl with Some p => Some (f p) | None => None end.
Proof.
  intros fs. induction fs as [|[n t] fs IH]; intros [|p pl] f H name; try discriminate; auto.
  cbn in H. injection H as H1 H2. cbn [map attribute member]. rewrite H1. destruct (n =? name)%string; auto.
Qed.

Lemma places_names_from : forall (fs : list (string * ctype)) os, length os = length fs ->
  map place_name (map (fun x => Place (fst (snd x)) (fst x) (size_of (snd (snd x))) (kind_of (snd (snd x)))) (combine os fs))
  = map fst fs.
Proof. intros fs. induction fs; intros [|o os] H; try discriminate; auto. cbn. f_equal. apply IHfs. cbn in H. lia. Qed.

Lemma offsets_length : forall pack fs o, length (offsets pack o fs) = length fs.
Proof. intros pack fs. induction fs; intros; cbn; auto. Qed.

Lemma places_names : forall pack fs, map place_name (places pack fs) = map fst fs.
Proof. intros. apply places_names_from. rewrite offsets_length, map_length. reflexivity. Qed.

Lemma attribute_found : forall a pack fs b, bytes_ok b -> (sizeof pack (map snd fs) <= length b)%nat ->
  Forall (fun f => kind_of (snd f) = Signed -> (1 <= size_of (snd f))%nat) fs ->
  exists vs, from_string a pack (map snd fs) b = Ok vs /\
    forall name, attribute name fs vs = look (little_endian a) (places pack fs) name b.
Proof.
  intros. eexists. split; [apply parse_found; auto|]. intros. rewrite attribute_of by apply places_names. reflexivity.
Qed.

Lemma store_ok : forall a t v, (forall b, v = CBytes b -> bytes_ok b) -> bytes_ok (store a t v).
Proof.
  assert (Z0 : forall n, bytes_ok (zeros n)).
  { intros. apply Forall_forall. intros x Hx. apply repeat_spec in Hx. subst. unfold byte_ok. lia. }
  intros a [n al sg|n] [z|b] H; cbn [store]; try apply Z0.
  - destruct (little_endian a); [apply Forall_rev|]; apply be_bytes_ok.
  - apply Forall_forall. intros x Hx. assert (In x (b ++ zeros n)).
    { rewrite <- (firstn_skipn n (b ++ zeros n)). apply in_or_app. auto. }
    apply in_app_or in H0. destruct H0; [eapply (proj1 (Forall_forall _ _) (H b eq_refl)); eauto|
      eapply (proj1 (Forall_forall _ _) (Z0 n)); eauto].
Qed.

Lemma fields_raw_ok : forall a pack fs vs o, (forall b, In (CBytes b) vs -> bytes_ok b) -> bytes_ok (fields_raw a pack o fs vs).
Proof.
  intros a pack fs. induction fs as [|t fs IH]; intros [|v vs] o H; try constructor. cbn [fields_raw].
  apply Forall_app. split.
  - apply Forall_forall. intros x Hx. apply repeat_spec in Hx. subst. unfold byte_ok. lia.
  - apply Forall_app. split; [apply store_ok; intros; apply H; left; auto|]. apply IH. intros. apply H. right. auto.
Qed.

Lemma to_raw_ok : forall a pack fs vs, (forall b, In (CBytes b) vs -> bytes_ok b) -> bytes_ok (to_raw a pack fs vs).
Proof.
  intros. apply Forall_app. split; [apply fields_raw_ok; auto|].
  apply Forall_forall. intros x Hx. apply repeat_spec in Hx. subst. unfold byte_ok. lia.
Qed.

(** A machine finds in the memory of an object what its fields hold. *)
Lemma raw_found : forall a pack fs vs, Forall2 fits (map snd fs) vs -> (forall b, In (CBytes b) vs -> bytes_ok b) ->
  Forall (fun f => kind_of (snd f) = Signed -> (1 <= size_of (snd f))%nat) fs ->
  forall name, look (little_endian a) (places pack fs) name (to_raw a pack (map snd fs) vs) = attribute name fs vs.
Proof.
  intros a pack fs vs F B Hs name.
  assert (L : length (map snd fs) = length vs) by (apply fits_length; auto).
  destruct (attribute_found a pack fs (to_raw a pack (map snd fs) vs)) as [vs' [E A]]; auto.
  - apply to_raw_ok; auto.
  - rewrite to_raw_length; auto.
  - rewrite round_trip in E by auto. injection E as E. subst vs'. symmetry. apply A.
Qed.

Lemma signed_ok : forall fs, forallb (fun f => match kind_of (snd f) with Signed => (1 <=? size_of (snd f))%nat | _ => true end) fs = true ->
  Forall (fun f : string * ctype => kind_of (snd f) = Signed -> (1 <= size_of (snd f))%nat) fs.
Proof.
  intros fs H. apply Forall_forall. intros f Hf K. apply (proj1 (forallb_forall _ _) H) in Hf. rewrite K in Hf.
  apply Nat.leb_le in Hf. auto.
Qed.

(** The structures' places. *)
Lemma sgio_places_64 : forall l, places None (sgio_fields (lp64 l)) = sg_io_hdr_64.
Proof. reflexivity. Qed.
Lemma sgio_places_32 : forall l, places None (sgio_fields (ilp32 l)) = sg_io_hdr_32.
Proof. reflexivity. Qed.
Lemma scsicmd_places_64 : forall l, places None (scsicmd_fields (lp64 l)) = uscsi_cmd_64.
Proof. reflexivity. Qed.
Lemma scsicmd_places_32 : forall l, places None (scsicmd_fields (ilp32 l)) = uscsi_cmd_32.
Proof. reflexivity. Qed.
Lemma passthru_places_64 : forall l, places None (passthru_fields (lp64 l)) = sc_passthru_64.
Proof. reflexivity. Qed.
Lemma passthru_places_32 : forall l, places None (passthru_fields (ilp32 l)) = sc_passthru_32.
Proof. reflexivity. Qed.
Lemma overlapped_places_64 : places None (overlapped_fields llp64) = overlapped_64.
Proof. reflexivity. Qed.
Lemma overlapped_places_32 : places None (overlapped_fields win32) = overlapped_32.
Proof. reflexivity. Qed.

Lemma wrap_small : forall n z, 0 <= z < n -> z mod n = z.
Proof. intros. apply Z.mod_small. auto. Qed.

Lemma int_small : forall z, -2147483648 <= z < 2147483648 -> c_int z = z.
Proof. intros. unfold c_int, c_signed. change (2 ^ (32 - 1)) with 2147483648. change (2 ^ 32) with 4294967296.
  rewrite Z.mod_small by lia. lia. Qed.

Lemma short_small : forall z, -32768 <= z < 32768 -> c_short z = z.
Proof. intros. unfold c_short, c_signed. change (2 ^ (16 - 1)) with 32768. change (2 ^ 16) with 65536.
  rewrite Z.mod_small by lia. lia. Qed.

Lemma zlen_nonneg : forall l : bytes, 0 <= zlen l.
Proof. intros. unfold zlen. lia. Qed.

Lemma sensible_len : forall c, sensible c -> 0 <= zlen (command_of c) < 256.
Proof. intros [b n|b d] H; cbn in *; pose proof (zlen_nonneg b); lia. Qed.

Lemma sensible_ok : forall c, sensible c -> bytes_ok (command_of c).
Proof. intros [b n|b d] H; cbn in *; tauto. Qed.

Lemma nth_last : forall (h : heap) x r, nth_error (h ++ x :: r) (length h) = Some x.
Proof. intros. rewrite nth_error_app2, Nat.sub_diag by lia. reflexivity. Qed.

Lemma nth_next : forall (h : heap) x y r, nth_error (h ++ x :: y :: r) (Datatypes.S (length h)) = Some y.
Proof. intros. rewrite nth_error_app2 by lia. replace (Datatypes.S (length h) - length h)%nat with 1%nat by lia. reflexivity. Qed.

Lemma nth_next2 : forall (h : heap) x y z r, nth_error (h ++ x :: y :: z :: r) (Datatypes.S (Datatypes.S (length h))) = Some z.
Proof. intros. rewrite nth_error_app2 by lia. replace (Datatypes.S (Datatypes.S (length h)) - length h)%nat with 2%nat by lia. reflexivity. Qed.
