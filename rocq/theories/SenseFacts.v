(** Lemmas on sense data. *)
From Coq Require Import String ZArith List Bool Lia.
From Verif Require Import Base BaseFacts OsCommon OsFacts Instruct InstructFacts Command SpecSg SpecDevice AscTable Sense SpecSense
  CdbLemmas ResponseLemmas LinuxFacts SpecExecute.
Import ListNotations.
Local Open Scope string_scope.
Local Open Scope Z_scope.

Lemma bf_range : forall k lo w b, 0 <= bf k lo w b < 2 ^ Z.of_nat w.
Proof. intros. unfold bf. apply Z.mod_pos_bound. apply Z.pow_pos_nonneg; lia. Qed.
Lemma key_name_spec : forall k, 0 <= k < 16 -> key_name k scsi_sense_key = Ok (sense_key_text k).
Proof.
  intros k H. assert (C : In k (map Z.of_nat (seq 0 16))).
  { apply in_map_iff. exists (Z.to_nat k). rewrite in_seq. lia. }
  cbn in C. repeat (destruct C as [<-|C]; [reflexivity|]). destruct C.
Qed.
Lemma uf_key : forall j lo k got buf, ((lo <? lo + 4) && (lo + 4 <=? 8) = true)%nat -> bytes_ok buf ->
  unpack_fields (("sense_key", fun _ b => do v <- read_int false (bits_of j lo (lo + 4)) b; key_name v scsi_sense_key) :: k) got buf =
  if (S j <=? length buf)%nat
  then unpack_fields k (got ++ [("sense_key", sense_key_text (bf j lo 4 buf))])%list buf else Err EInstruct.
Proof.
  intros j lo k got buf H O. rewrite andb_true_iff, Nat.leb_le, Nat.ltb_lt in H.
  cbn [unpack_fields]. rewrite read_bits by (auto; lia). unfold Nat.ltb.
  destruct (S j <=? length buf)%nat; [|reflexivity]. cbn [bind].
  replace (lo + 4 - lo)%nat with 4%nat by lia.
  rewrite key_name_spec by (pose proof (bf_range j lo 4 buf); lia). reflexivity.
Qed.

Ltac sense_step O := first [ rewrite uf_key by (first [exact O | reflexivity]); cbn [Nat.sub app] | uf_step O ].

Lemma fixed_spec : forall b, bytes_ok b ->
  sense_fixed b = if 17 <=? zlen b then Ok (fixed_sense_object b) else Err EInstruct.
Proof.
  intros b O. unfold sense_fixed. change (struct_size fixed_items) with 17%nat.
  change 17 with (Z.of_nat 17). rewrite zlen_leb. destruct (Nat.leb_spec 17 (length b)); [|reflexivity].
  unfold unpack. cbn [c_name c_fields].
  change (map sense_reader (struct_fields 0 fixed_items)) with
    [("response_code.code", r_uint (bits_of 0 0 7)); ("response_code.valid", r_uint (bits_of 0 7 8));
     ("sense_key", fun (_ : attrs) b => do v <- read_int false (bits_of 2 0 (0 + 4)) b; key_name v scsi_sense_key);
     ("ili", r_uint (bits_of 2 5 6)); ("eom", r_uint (bits_of 2 6 7)); ("filemark", r_uint (bits_of 2 7 8));
     ("information", r_uint (bytes_of 3 7)); ("additional_sense_length", r_uint (bytes_of 7 8));
     ("command_specific_information", r_uint (bytes_of 8 12)); ("additional_sense_code.code", r_uint (bytes_of 12 13));
     ("additional_sense_code.qualifier", r_uint (bytes_of 13 14)); ("field_replaceable_unit_code", r_uint (bytes_of 14 15));
     ("sense_key_specific_high", r_uint (bits_of 15 0 7)); ("sksv", r_uint (bits_of 15 7 8));
     ("sense_key_specific_low", r_uint (bytes_of 16 17))].
  repeat (sense_step O; too_short). reflexivity.
Qed.

Lemma descriptor_fields : forall b, bytes_ok b -> (7 <= length b)%nat ->
  unpack_fields (map sense_reader (struct_fields 0 descriptor_items)) [] b = Ok (descriptor_sense_attrs b).
Proof.
  intros b O L.
  change (map sense_reader (struct_fields 0 descriptor_items)) with
    [("response_code.code", r_uint (bits_of 0 0 7)); ("response_code.valid", r_uint (bits_of 0 7 8));
     ("sense_key", fun (_ : attrs) b => do v <- read_int false (bits_of 1 0 (0 + 4)) b; key_name v scsi_sense_key);
     ("additional_sense_code.code", r_uint (bytes_of 2 3)); ("additional_sense_code.qualifier", r_uint (bytes_of 3 4))].
  repeat (sense_step O; too_short). reflexivity.
Qed.

Lemma descriptors_empty : forall b, bytes_ok b -> 7 <= zlen b -> byte_at 6 b = 0 ->
  sense_descriptors b = Ok (descriptor_sense_object b []).
Proof.
  intros b O L Z6. unfold sense_descriptors. change (struct_size descriptor_items) with 6%nat.
  unfold zlen in *. destruct (Nat.ltb_spec (length b) 7); [lia|].
  rewrite descriptor_fields by (auto; lia). cbn [bind]. rewrite Z6.
  destruct (Z.ltb_spec (Z.of_nat (length b)) (7 + 0)); [lia|].
  change (Z.to_nat (7 + 0)) with 7%nat. unfold slice. rewrite Nat.sub_diag. cbn [firstn]. reflexivity.
Qed.
Lemma descriptors_some : forall b p, bytes_ok b -> sense_descriptors b = Ok p ->
  exists ds, p = descriptor_sense_object b ds.
Proof.
  intros b p O H. unfold sense_descriptors in H. change (struct_size descriptor_items) with 6%nat in H.
  destruct (Nat.ltb_spec (length b) 7); [discriminate|].
  rewrite descriptor_fields in H by (auto; lia). cbn [bind] in H. cbv zeta in H.
  destruct (zlen b <? 7 + byte_at 6 b); [discriminate|].
  destruct (read_list sense_descriptor _) as [ds|]; [|discriminate]. injection H as <-. exists ds. reflexivity.
Qed.

Lemma code_bf : forall x b, byte_ok x -> bf 0 0 7 (x :: b) = x mod 128.
Proof. intros x b H. unfold bf. cbn. rewrite Z.div_1_r. reflexivity. Qed.

Lemma sense_object_spec : forall b, bytes_ok b -> b <> [] ->
  sense_object b =
    if (bf 0 0 7 b =? 112) || (bf 0 0 7 b =? 113) then
      if 17 <=? zlen b then Ok (fixed_sense_object b) else Err EInstruct
    else if (bf 0 0 7 b =? 114) || (bf 0 0 7 b =? 115) then sense_descriptors b
    else Ok PNone.
Proof.
  intros [|x b] O N; [contradiction|]. rewrite code_bf by (inversion O; assumption).
  unfold sense_object. rewrite fixed_spec by exact O. reflexivity.
Qed.

Lemma pad_nth : forall n l k, (k < n)%nat -> nth k (pad n l) 0 = nth k l 0.
Proof.
  intros n l k H. unfold pad. destruct (Nat.lt_ge_cases k (length l)) as [L|L].
  - rewrite app_nth1 by (rewrite firstn_length; lia). rewrite <- (firstn_skipn n l) at 2.
    rewrite app_nth1 by (rewrite firstn_length; lia). reflexivity.
  - rewrite app_nth2 by (rewrite firstn_length; lia). rewrite (nth_overflow l) by lia.
    unfold zeros. apply nth_repeat.
Qed.
Lemma pad_ok : forall n l, bytes_ok l -> bytes_ok (pad n l).
Proof.
  intros n l H. unfold pad. apply bytes_ok_app. split; [apply bytes_ok_firstn; exact H|].
  unfold zeros, bytes_ok. apply Forall_forall. intros x X. apply repeat_spec in X. subst x. unfold byte_ok. lia.
Qed.
Lemma pad_len : forall n l, length (pad n l) = n.
Proof. intros n l. unfold pad, zeros. rewrite app_length, firstn_length, repeat_length. lia. Qed.

Lemma conforming_parses : forall sense, conforming_sense sense -> parse_sense (pad 255 sense) = Ok tt.
Proof.
  intros sense [O C]. pose proof (pad_ok 255 sense O) as P. pose proof (pad_len 255 sense) as L.
  assert (B : bf 0 0 7 (pad 255 sense) = bf 0 0 7 sense). { unfold bf, byte_at. rewrite pad_nth by lia. reflexivity. }
  assert (B6 : byte_at 6 (pad 255 sense) = byte_at 6 sense). { unfold byte_at. apply pad_nth. lia. }
  unfold parse_sense. rewrite sense_object_spec; [|exact P|intro E; rewrite E in L; discriminate L]. rewrite B.
  unfold zlen. rewrite L. change (17 <=? Z.of_nat 255) with true. cbv iota.
  destruct ((bf 0 0 7 sense =? 112) || (bf 0 0 7 sense =? 113)); [reflexivity|].
  destruct ((bf 0 0 7 sense =? 114) || (bf 0 0 7 sense =? 115)) eqn:D; [|reflexivity].
  apply orb_true_iff in D. rewrite !Z.eqb_eq in D.
  rewrite descriptors_empty; [reflexivity|exact P|unfold zlen; rewrite L; lia|rewrite B6; auto].
Qed.

Lemma conforming_answer : forall a, conforming_sense (a_sense a) -> linux_answer parse_sense a.
Proof. intros a C _. apply conforming_parses. exact C. Qed.

(** Descriptor format as a device sends it. *)
Lemma descriptor_data_read : forall code key asc ascq ovfl ds rest,
  (code = 114 \/ code = 115) -> 0 <= key < 16 -> byte_ok asc -> byte_ok ascq -> (ovfl = 0 \/ ovfl = 1) ->
  Forall bytes_ok ds -> zlen (concat ds) < 256 -> bytes_ok rest ->
  sense_object (descriptor_sense_data code key asc ascq ovfl ds ++ rest)%list =
  Ok (PObj "SCSISenseDataDescriptorBased"
        [("response_code.code", PInt code); ("response_code.valid", PInt 0); ("sense_key", sense_key_text key);
         ("additional_sense_code.code", PInt asc); ("additional_sense_code.qualifier", PInt ascq);
         ("descriptors", PList [])]).
Proof.
  intros code key asc ascq ovfl ds rest C K A Q V D L R. unfold descriptor_sense_data. cbn [app].
  assert (O : bytes_ok (code :: key :: asc :: ascq :: 128 * ovfl :: 0 :: 0 :: zlen (concat ds) :: (concat ds ++ rest))%list).
  { unfold byte_ok in *. repeat (constructor; [unfold byte_ok, zlen in *; lia|]).
    apply bytes_ok_app. split; [|exact R]. clear -D. induction D as [|x l X D IH]; [constructor|]. cbn. apply bytes_ok_app. auto. }
  rewrite sense_object_spec; [|exact O|discriminate].
  rewrite code_bf by (unfold byte_ok; lia).
  assert (M : code mod 128 = code) by (apply Z.mod_small; lia). rewrite M.
  destruct (Z.eqb_spec code 112); [lia|]. destruct (Z.eqb_spec code 113); [lia|]. cbn [orb].
  replace ((code =? 114) || (code =? 115)) with true
    by (symmetry; apply orb_true_iff; rewrite !Z.eqb_eq; lia).
  rewrite descriptors_empty; [|exact O|unfold zlen; cbn [length]; lia|reflexivity].
  unfold descriptor_sense_object, descriptor_sense_attrs. rewrite code_bf by (unfold byte_ok; lia). rewrite M.
  assert (X1 : bf 0 7 1 (code :: key :: asc :: ascq :: 128 * ovfl :: 0 :: 0 :: zlen (concat ds) :: (concat ds ++ rest))%list = 0).
  { unfold bf. cbn [byte_at nth]. change (2 ^ Z.of_nat 7) with 128. rewrite Z.div_small by lia. reflexivity. }
  assert (X2 : bf 1 0 4 (code :: key :: asc :: ascq :: 128 * ovfl :: 0 :: 0 :: zlen (concat ds) :: (concat ds ++ rest))%list = key).
  { unfold bf. cbn [byte_at nth]. change (2 ^ Z.of_nat 0) with 1. rewrite Z.div_1_r. apply Z.mod_small. exact K. }
  rewrite X1, X2. unfold ub, slice. cbn. reflexivity.
Qed.

(** ** Additional sense codes *)
Lemma last_none : forall c q l f, (forall t, ~ In (c, q, t) l) -> assigned_last c q l f = f.
Proof.
  intros c q l. induction l as [|[[c' q'] t] l IH]; intros f H; cbn [assigned_last]; [reflexivity|].
  rewrite IH by (intros t' I; apply (H t'); right; exact I).
  destruct (Z.eqb_spec c' c) as [->|]; [|reflexivity]. destruct (Z.eqb_spec q' q) as [->|]; [|reflexivity].
  exfalso. apply (H t). left. reflexivity.
Qed.
Lemma last_in : forall c q l t f, NoDup (map fst l) -> In (c, q, t) l -> assigned_last c q l f = Some t.
Proof.
  intros c q l t. induction l as [|[[c' q'] t'] l IH]; intros f N I; [destruct I|].
  cbn in N. inversion N as [|? ? N1 N2]; subst. cbn [assigned_last]. destruct I as [E|I].
  - injection E as -> -> ->. rewrite !Z.eqb_refl. cbn [andb]. apply last_none.
    intros t' I. apply N1. apply in_map_iff. exists (c, q, t'). auto.
  - apply IH; auto.
Qed.
Fixpoint distinct (l : list Z) : bool :=
  match l with [] => true | x :: r => forallb (fun y => negb (y =? x)) r && distinct r end.
Lemma distinct_nodup : forall l, distinct l = true -> NoDup l.
Proof.
  induction l as [|x l IH]; cbn [distinct]; intro H; [constructor|].
  apply andb_true_iff in H. destruct H as [F D]. constructor; [|auto].
  intro I. rewrite forallb_forall in F. specialize (F x I). rewrite Z.eqb_refl in F. discriminate F.
Qed.
Lemma asc_nodup : NoDup (map fst asc_assignments).
Proof.
  apply (NoDup_map_inv (fun p => 256 * fst p + snd p)). apply distinct_nodup. vm_compute. reflexivity.
Qed.

Lemma hex2_shown : forall q, 0 <= q < 256 -> hex2 q = shown_qualifier q.
Proof.
  intros q H. assert (D : forall d, 0 <= d < 16 -> hex_digit d = nth (Z.to_nat d) digits "").
  { intros d Hd. assert (C : In d (map Z.of_nat (seq 0 16))).
    { apply in_map_iff. exists (Z.to_nat d). rewrite in_seq. lia. }
    cbn in C. repeat (destruct C as [<-|C]; [reflexivity|]). destruct C. }
  unfold hex2, shown_qualifier. rewrite !D; auto.
  - apply Z.mod_pos_bound. lia.
  - split; [apply Z.div_pos; lia|apply Z.div_lt_upper_bound; lia].
Qed.
Lemma in_zrange : forall a b x, In x (zrange a b) <-> a <= x < b.
Proof.
  intros a b x. unfold zrange. rewrite in_map_iff. split.
  - intros (i & <- & I). apply in_seq in I. lia.
  - intros H. exists (Z.to_nat (x - a)). rewrite in_seq. lia.
Qed.

Lemma table_name : forall c q t, In (c, q, t) asc_table -> code_name c q = t.
Proof.
  intros c q t I. unfold code_name. rewrite (last_in c q _ t); [reflexivity|apply asc_nodup|].
  unfold asc_assignments. apply in_app_iff. left. exact I.
Qed.
Lemma ranged_name : forall c q, 0 <= c < 256 -> 0 <= q < 256 -> ranged c q = true -> code_name c q = ranged_text c q.
Proof.
  intros c q C Q R. unfold code_name. rewrite (last_in c q _ (ranged_text c q)); [reflexivity|apply asc_nodup|].
  unfold ranged in R. apply andb_true_iff in R. destruct R as [F R]. apply Z.ltb_lt in F.
  rewrite !orb_true_iff, andb_true_iff, !Z.eqb_eq, Z.leb_le in R.
  unfold asc_assignments. rewrite !in_app_iff. right. unfold ranged_text. rewrite <- hex2_shown by lia.
  destruct R as [[[-> R]| ->]| ->].
  - left. apply in_map_iff. exists q. rewrite in_zrange. split; [reflexivity|lia].
  - right. apply in_flat_map. exists q. rewrite in_zrange. split; [lia|left; reflexivity].
  - right. apply in_flat_map. exists q. rewrite in_zrange. split; [lia|right; left; reflexivity].
Qed.
Lemma unknown_name : forall c q, 0 <= q -> (forall t, ~ In (c, q, t) asc_table) -> ranged c q = false ->
  code_name c q = "Unknown code, qualifier: " ++ decimal c ++ ", " ++ decimal q.
Proof.
  intros c q Q T R. unfold code_name. rewrite last_none; [reflexivity|].
  intros t I. unfold asc_assignments in I. rewrite !in_app_iff in I.
  unfold ranged in R. rewrite andb_false_iff, Z.ltb_ge, !orb_false_iff, andb_false_iff, !Z.eqb_neq, Z.leb_gt in R.
  destruct I as [I|[I|I]].
  - exact (T t I).
  - apply in_map_iff in I. destruct I as (x & E & I). apply in_zrange in I. injection E as <- <- _. lia.
  - apply in_flat_map in I. destruct I as (x & I & J). apply in_zrange in I.
    destruct J as [E|[E|[]]]; injection E as <- <- _; lia.
Qed.
Lemma last_qualifier : forall c, In c [64; 77; 112] -> code_name c 255 = "Unknown code, qualifier: " ++ decimal c ++ ", 255".
Proof. intros c I. cbn in I. destruct I as [<-|[<-|[<-|[]]]]; vm_compute; reflexivity. Qed.

Lemma sense_fixed_format : forall b, bytes_ok b -> b <> [] -> (bf 0 0 7 b = 112 \/ bf 0 0 7 b = 113) ->
  sense_object b = if 17 <=? zlen b then Ok (fixed_sense_object b) else Err EInstruct.
Proof.
  intros b O N C. rewrite sense_object_spec by assumption.
  replace ((bf 0 0 7 b =? 112) || (bf 0 0 7 b =? 113)) with true; [reflexivity|].
  symmetry. apply orb_true_iff. rewrite !Z.eqb_eq. exact C.
Qed.
Lemma sense_descriptor_format : forall b p, bytes_ok b -> (bf 0 0 7 b = 114 \/ bf 0 0 7 b = 115) -> sense_object b = Ok p ->
  exists ds, p = descriptor_sense_object b ds.
Proof.
  intros b p O C H. assert (N : b <> []) by (intros ->; discriminate H).
  rewrite sense_object_spec in H by assumption.
  destruct (Z.eqb_spec (bf 0 0 7 b) 112); [lia|]. destruct (Z.eqb_spec (bf 0 0 7 b) 113); [lia|]. cbn [orb] in H.
  destruct ((bf 0 0 7 b =? 114) || (bf 0 0 7 b =? 115)) eqn:D; [apply descriptors_some in H; auto|].
  apply orb_false_iff in D. rewrite !Z.eqb_neq in D. lia.
Qed.
Lemma sense_other_format : forall b, bytes_ok b -> b <> [] ->
  bf 0 0 7 b <> 112 -> bf 0 0 7 b <> 113 -> bf 0 0 7 b <> 114 -> bf 0 0 7 b <> 115 -> sense_object b = Ok PNone.
Proof.
  intros b O N A B C D. rewrite sense_object_spec by assumption. apply Z.eqb_neq in A, B, C, D.
  rewrite A, B, C, D. reflexivity.
Qed.
Lemma descriptors_refuted :
  ~ (forall ds p l, sense_object (descriptor_sense_data 114 5 36 0 0 ds) = Ok p ->
       (exists n a, p = PObj n (a ++ [("descriptors", PList l)])%list) -> length l = length ds).
Proof.
  intro H. specialize (H [[1; 1; 7]] _ [] eq_refl). cbn in H. discriminate H.
  eexists. eexists [_; _; _; _; _]. reflexivity.
Qed.

Lemma mem_in : forall c q t (l : list (Z * Z * string)),
  existsb (fun r => (fst (fst r) =? c) && (snd (fst r) =? q) && String.eqb (snd r) t) l = true -> In (c, q, t) l.
Proof.
  intros c q t l H. apply existsb_exists in H. destruct H as ([[c' q'] t'] & I & E). cbn [fst snd] in E.
  apply andb_true_iff in E. destruct E as [E T]. apply andb_true_iff in E. destruct E as [E Q].
  apply Z.eqb_eq in E, Q. apply String.eqb_eq in T. subst. exact I.
Qed.

Fixpoint distinct_texts (l : list string) : bool :=
  match l with [] => true | x :: r => forallb (fun y => negb (String.eqb y x)) r && distinct_texts r end.
Lemma distinct_texts_nth : forall l i j d, distinct_texts l = true -> (i < length l)%nat -> (j < length l)%nat ->
  nth i l d = nth j l d -> i = j.
Proof.
  induction l as [|x l IH]; intros i j d D I J E; [cbn in I; lia|].
  cbn [distinct_texts] in D. apply andb_true_iff in D. destruct D as [F D]. rewrite forallb_forall in F.
  assert (X : forall k, (k < length l)%nat -> nth k l d <> x).
  { intros k K Y. specialize (F (nth k l d) (nth_In l d K)). rewrite Y, String.eqb_refl in F. discriminate F. }
  cbn in I, J. destruct i, j; cbn in E; auto.
  - exfalso. apply (X j); [lia|auto].
  - exfalso. apply (X i); [lia|auto].
  - f_equal. eapply IH; eauto; lia.
Qed.
Lemma shown_inj : forall q q', 0 <= q < 256 -> 0 <= q' < 256 -> shown_qualifier q = shown_qualifier q' -> q = q'.
Proof.
  intros q q' H H' E. set (l := map (fun i => shown_qualifier (Z.of_nat i)) (seq 0 256)).
  assert (L : length l = 256%nat) by reflexivity.
  assert (N : forall x, 0 <= x < 256 -> nth (Z.to_nat x) l "" = shown_qualifier x).
  { intros x X. unfold l. rewrite (nth_indep _ _ (shown_qualifier (Z.of_nat 0)))
      by (rewrite map_length, seq_length; lia).
    rewrite (map_nth (fun i => shown_qualifier (Z.of_nat i))), seq_nth by lia. f_equal. lia. }
  assert (D : distinct_texts l = true) by (vm_compute; reflexivity).
  pose proof (distinct_texts_nth l (Z.to_nat q) (Z.to_nat q') "" D) as P. rewrite !N in P by assumption.
  specialize (P ltac:(lia) ltac:(lia) E). lia.
Qed.
Lemma append_inj_l : forall p a b : string, (p ++ a)%string = (p ++ b)%string -> a = b.
Proof. induction p as [|c p IH]; intros a b H; [exact H|]. injection H. auto. Qed.
Lemma append_length : forall a b, String.length (a ++ b) = (String.length a + String.length b)%nat.
Proof. induction a as [|c a IH]; intros b; cbn; [reflexivity|]. rewrite IH. reflexivity. Qed.
Lemma append_inj_len : forall a b s t : string, String.length a = String.length b -> (a ++ s)%string = (b ++ t)%string -> a = b.
Proof.
  induction a as [|c a IH]; intros [|d b] s t L H; cbn in L; try discriminate L; [reflexivity|].
  injection H as -> H. injection L as L. f_equal. eapply IH; eauto.
Qed.
Lemma shown_length : forall q, 0 <= q < 256 -> String.length (shown_qualifier q) = 2%nat.
Proof.
  intros q H. set (P := fun q => Nat.eqb (String.length (shown_qualifier q)) 2).
  assert (F : forallb P (map Z.of_nat (seq 0 256)) = true) by (vm_compute; reflexivity).
  rewrite forallb_forall in F. apply Nat.eqb_eq. apply F. apply in_map_iff. exists (Z.to_nat q). rewrite in_seq. lia.
Qed.
Lemma ranged_differ : forall c q q', 0 <= q < 256 -> 0 <= q' < 256 -> ranged c q = true -> ranged c q' = true ->
  0 <= c < 256 -> code_name c q = code_name c q' -> q = q'.
Proof.
  intros c q q' Q Q' R R' C E. rewrite !ranged_name in E by assumption. unfold ranged_text in E.
  apply shown_inj; auto. destruct (c =? 64); [apply append_inj_l in E; exact E|].
  destruct (c =? 77); [|apply append_inj_l in E; exact E].
  apply append_inj_l in E. apply append_inj_len in E; [exact E|]. rewrite !shown_length; auto.
Qed.
