(** The results of READ CAPACITY, REPORT LUNS, PERSISTENT RESERVE IN. *)
From Coq Require Import String ZArith List Bool Lia.
From Verif Require Import Base BaseFacts OsCommon Instruct InstructFacts Command CdbBlock CdbPrimary SpecDevice SpecCdb CdbLemmas ResponseLemmas.
Import ListNotations.
Local Open Scope string_scope.
Local Open Scope Z_scope.

Lemma read_capacity10_response : forall b, bytes_ok b ->
  unpack_struct "ReportReadCapacityData10" read_capacity10_data b =
  if 8 <=? zlen b
  then Ok (PObj "ReportReadCapacityData10"
             [("last_logical_block_address", PInt (ub 0 4 b)); ("block_length_in_bytes", PInt (ub 4 8 b))])
  else Err EInstruct.
Proof.
  intros b O. unfold unpack_struct. change (struct_size read_capacity10_data) with 8%nat.
  change 8 with (Z.of_nat 8). rewrite zlen_leb. destruct (Nat.leb_spec 8 (length b)); [|reflexivity].
  unfold unpack. cbn [c_name c_fields map struct_fields read_capacity10_data app f_name f_bits item_size Nat.add].
  repeat (uf_step O; too_short). reflexivity.
Qed.
Lemma read_capacity16_response : forall b, bytes_ok b ->
  unpack_struct "ReportReadCapacityData16" read_capacity16_data b =
  if 32 <=? zlen b
  then Ok (PObj "ReportReadCapacityData16"
             [("last_logical_block_address", PInt (ub 0 8 b)); ("block_length_in_bytes", PInt (ub 8 12 b));
              ("prot_en", PInt (bf 12 0 1 b)); ("p_type", PInt (bf 12 1 3 b));
              ("logical_blocks_per_physical_block", PInt (bf 13 0 4 b)); ("p_i_exponent", PInt (bf 13 4 4 b));
              ("lowest_aligned_lba_msb", PInt (bf 14 0 6 b)); ("troz", PInt (bf 14 6 1 b)); ("tpe", PInt (bf 14 7 1 b));
              ("lowest_aligned_lba_lsb", PInt (ub 15 16 b))])
  else Err EInstruct.
Proof.
  intros b O. unfold unpack_struct. change (struct_size read_capacity16_data) with 32%nat.
  change 32 with (Z.of_nat 32). rewrite zlen_leb. destruct (Nat.leb_spec 32 (length b)); [|reflexivity].
  unfold unpack. cbn [c_name c_fields].
  change (map _ (struct_fields 0 read_capacity16_data)) with
    [("last_logical_block_address", r_uint (bytes_of 0 8)); ("block_length_in_bytes", r_uint (bytes_of 8 12));
     ("prot_en", r_uint (bits_of 12 0 1)); ("p_type", r_uint (bits_of 12 1 4));
     ("logical_blocks_per_physical_block", r_uint (bits_of 13 0 4)); ("p_i_exponent", r_uint (bits_of 13 4 8));
     ("lowest_aligned_lba_msb", r_uint (bits_of 14 0 6)); ("troz", r_uint (bits_of 14 6 7));
     ("tpe", r_uint (bits_of 14 7 8)); ("lowest_aligned_lba_lsb", r_uint (bytes_of 15 16))].
  repeat (uf_step O; too_short). reflexivity.
Qed.

(** * REPORT LUNS *)

Lemma flat_be_length : forall n l, length (flat_map (be_bytes n) l) = (n * length l)%nat.
Proof.
  intros n l. induction l as [|x l IH]; cbn [flat_map length]; [lia|].
  rewrite app_length, be_bytes_length, IH. lia.
Qed.
Lemma slice0 : forall n (a r : bytes), length a = n -> slice 0 n (a ++ r)%list = a.
Proof.
  intros n a r <-. unfold slice. cbn [skipn]. rewrite Nat.sub_0_r, firstn_app, firstn_all, Nat.sub_diag.
  cbn. apply app_nil_r.
Qed.
Lemma skipn_exactly : forall n (a r : bytes), length a = n -> skipn n (a ++ r)%list = r.
Proof. intros n a r <-. rewrite skipn_app, skipn_all, Nat.sub_diag. reflexivity. Qed.

Lemma uint64s_spec : forall luns rest, Forall (fun x => 0 <= x < 2 ^ 64) luns ->
  uint64s (length luns) (flat_map (be_bytes 8) luns ++ rest)%list = luns.
Proof.
  induction luns as [|x l IH]; intros rest F; [reflexivity|].
  inversion F as [|? ? X FL]; subst. cbn [length uint64s flat_map].
  rewrite <- app_assoc. rewrite slice0 by apply be_bytes_length. rewrite skipn_exactly by apply be_bytes_length.
  rewrite be_val_be_bytes_small by (cbn; exact X). rewrite IH by exact FL. reflexivity.
Qed.

Lemma luns_data_head : forall luns rest, 8 * zlen luns < 2 ^ 32 ->
  be_val (slice 0 4 (luns_data luns ++ rest)%list) = 8 * zlen luns.
Proof.
  intros luns rest H. unfold luns_data. rewrite <- app_assoc. rewrite slice0 by apply be_bytes_length.
  apply be_val_be_bytes_small. change (256 ^ Z.of_nat 4) with (2 ^ 32). unfold zlen in *. lia.
Qed.
Lemma luns_data_length : forall luns, zlen (luns_data luns) = 8 + 8 * zlen luns.
Proof.
  intros. unfold luns_data, zlen. rewrite !app_length, be_bytes_length, flat_be_length. cbn [zeros length repeat]. lia.
Qed.

Lemma report_luns_data_spec : forall luns rest, Forall (fun x => 0 <= x < 2 ^ 64) luns -> 8 * zlen luns < 2 ^ 32 ->
  report_luns_data (luns_data luns ++ rest)%list = Ok luns.
Proof.
  intros luns rest F H. unfold report_luns_data.
  assert (L : zlen (luns_data luns ++ rest)%list = 8 + 8 * zlen luns + zlen rest)
    by (unfold zlen at 1; rewrite app_length, Nat2Z.inj_add; fold (zlen (luns_data luns)); rewrite luns_data_length; reflexivity).
  replace (length (luns_data luns ++ rest)%list <? 8)%nat with false
    by (symmetry; apply Nat.ltb_ge; unfold zlen in *; lia).
  cbv zeta. rewrite luns_data_head, L by exact H.
  rewrite (Z.mul_comm 8 (zlen luns)), Z.mod_mul by lia. cbn [negb Z.eqb].
  replace (8 + zlen luns * 8 + zlen rest <? 8 + zlen luns * 8) with false
    by (symmetry; apply Z.ltb_ge; unfold zlen; lia).
  rewrite Z.div_mul by lia. unfold zlen. rewrite Nat2Z.id.
  f_equal. unfold luns_data. rewrite <- !app_assoc.
  rewrite (app_assoc (be_bytes 4 _)), skipn_exactly by (rewrite app_length, be_bytes_length; reflexivity).
  apply uint64s_spec. exact F.
Qed.

Lemma land_ones_0 : forall x n, 0 <= n -> Z.land x (Z.ones n) = x mod 2 ^ n.
Proof. intros. apply Z.land_ones. lia. Qed.

Lemma check_lun_spec : forall x, 0 <= x < 2 ^ 64 ->
  (single_level x /\ check_lun x = Ok tt) \/
  (~ single_level x /\ (check_lun x = Err (EUnsupportedLunAddressing x) \/ check_lun x = Err (EUnsupportedLunMethod x))).
Proof.
  intros x X. unfold check_lun.
  change 281474976710655 with (Z.ones 48). rewrite Z.land_ones by lia.
  assert (M : Z.land x 13835058055282163712 = 0 <-> x < 2 ^ 62).
  { change 13835058055282163712 with (Z.shiftl (Z.ones 2) 62). split.
    - intros H. assert (S : Z.shiftr x 62 = 0).
      { assert (Q : Z.land (Z.shiftr x 62) (Z.ones 2) = 0).
        { change (Z.ones 2) with (Z.shiftr (Z.shiftl (Z.ones 2) 62) 62).
          rewrite <- Z.shiftr_land. rewrite H. reflexivity. }
        rewrite Z.land_ones in Q by lia. rewrite Z.mod_small in Q; [exact Q|].
        rewrite Z.shiftr_div_pow2 by lia. split; [apply Z.div_pos; lia|apply Z.div_lt_upper_bound; lia]. }
      rewrite Z.shiftr_div_pow2 in S by lia. apply Z.div_small_iff in S; lia.
    - intros H. apply Z.bits_inj'. intros n N. rewrite Z.land_spec, Z.bits_0, Z.shiftl_spec by lia.
      destruct (Z.lt_ge_cases n 62).
      + rewrite (Z.testbit_neg_r _ (n - 62)) by lia. apply andb_false_r.
      + rewrite (InstructFacts.testbit_high x 62 n) by lia. reflexivity. }
  destruct (Z.eqb_spec (x mod 2 ^ 48) 0) as [E|E]; cbn [negb].
  - destruct (Z.eqb_spec (Z.land x 13835058055282163712) 0) as [D|D]; cbn [negb].
    + left. split; [|reflexivity]. apply M in D. exists (x / 2 ^ 48).
      pose proof (Z.div_mod x (2 ^ 48) ltac:(lia)). split; [|lia].
      split; [apply Z.div_pos; lia|apply Z.div_lt_upper_bound; lia].
    + right. split; [|right; reflexivity]. intros (lun & R & ->). apply D, M. lia.
  - right. split; [|left; reflexivity]. intros (lun & R & ->). apply E. apply Z.mod_mul. lia.
Qed.

Lemma check_luns_spec : forall l, Forall (fun x => 0 <= x < 2 ^ 64) l ->
  (Forall single_level l /\ check_luns l = Ok tt) \/
  (exists x, In x l /\ ~ single_level x /\
     (check_luns l = Err (EUnsupportedLunAddressing x) \/ check_luns l = Err (EUnsupportedLunMethod x))).
Proof.
  induction l as [|x l IH]; intros F; [left; split; [constructor|reflexivity]|].
  inversion F as [|? ? X FL]; subst. cbn [check_luns].
  destruct (check_lun_spec x X) as [(S & ->)|(S & [-> | ->])]; cbn [bind].
  - destruct (IH FL) as [(FS & ->)|(y & I & Y & E)].
    + left. split; [constructor; assumption|reflexivity].
    + right. exists y. split; [right; exact I|]. split; assumption.
  - right. exists x. cbn. auto.
  - right. exists x. cbn. auto.
Qed.


Lemma shiftr48 : forall x, Z.shiftr x 48 = x / 2 ^ 48.
Proof. intros. apply Z.shiftr_div_pow2. lia. Qed.

Lemma report_luns_allowed : forall select alloc luns rest, 16 <= alloc ->
  Forall (fun x => 0 <= x < 2 ^ 64) luns -> 8 * zlen luns < 2 ^ 32 ->
  yields (report_luns select alloc true) (Some (luns_data luns ++ rest)%list) =
  Ok (luns_object luns (map (fun x => x / 2 ^ 48) luns)).
Proof.
  intros select alloc luns rest A F H. unfold yields, report_luns. cbn [bind o_finish o_attrs].
  unfold report_luns_finish. change (attr "allocation_length" _) with alloc.
  replace (16 <=? alloc) with true by (symmetry; apply Z.leb_le; lia).
  rewrite report_luns_data_spec by assumption. cbn [bind]. unfold normalize_luns. cbn [bind].
  rewrite luns_data_head by exact H. unfold luns_object. do 2 f_equal.
  rewrite !map_map. f_equal. f_equal. f_equal. f_equal.
  apply map_ext. intros x. rewrite shiftr48. reflexivity.
Qed.
Lemma report_luns_simple : forall select alloc numbers rest, 16 <= alloc ->
  Forall (fun n => 0 <= n < 16384) numbers -> 8 * zlen numbers < 2 ^ 32 ->
  let luns := map (fun n => n * 2 ^ 48) numbers in
  yields (report_luns select alloc false) (Some (luns_data luns ++ rest)%list) = Ok (luns_object luns numbers).
Proof.
  intros select alloc numbers rest A F H luns.
  assert (FL : Forall (fun x => 0 <= x < 2 ^ 64) luns).
  { subst luns. apply Forall_map. eapply Forall_impl; [|exact F]. cbn. intros n N. lia. }
  assert (HL : 8 * zlen luns < 2 ^ 32) by (subst luns; unfold zlen in *; rewrite map_length; exact H).
  unfold yields, report_luns. cbn [bind o_finish o_attrs].
  unfold report_luns_finish. change (attr "allocation_length" _) with alloc.
  replace (16 <=? alloc) with true by (symmetry; apply Z.leb_le; lia).
  rewrite report_luns_data_spec by assumption. cbn [bind]. unfold normalize_luns.
  destruct (check_luns_spec luns FL) as [(S & ->)|(x & I & N & _)].
  2:{ exfalso. apply N. subst luns. apply in_map_iff in I. destruct I as (n & <- & I).
      exists n. rewrite Forall_forall in F. split; [apply F; exact I|reflexivity]. }
  cbn [bind]. rewrite luns_data_head by exact HL. unfold luns_object. do 2 f_equal.
  do 4 f_equal. subst luns. rewrite !map_map.
  apply map_ext. intros n. rewrite shiftr48, Z.div_mul by lia. reflexivity.
Qed.
Lemma report_luns_refuses : forall select alloc luns rest, 16 <= alloc ->
  Forall (fun x => 0 <= x < 2 ^ 64) luns -> 8 * zlen luns < 2 ^ 32 -> ~ Forall single_level luns ->
  exists x, In x luns /\ ~ single_level x /\
    (yields (report_luns select alloc false) (Some (luns_data luns ++ rest)%list) = Err (EUnsupportedLunAddressing x) \/
     yields (report_luns select alloc false) (Some (luns_data luns ++ rest)%list) = Err (EUnsupportedLunMethod x)).
Proof.
  intros select alloc luns rest A F H N. unfold yields, report_luns. cbn [bind o_finish o_attrs].
  unfold report_luns_finish. change (attr "allocation_length" _) with alloc.
  replace (16 <=? alloc) with true by (symmetry; apply Z.leb_le; lia).
  rewrite report_luns_data_spec by assumption. cbn [bind]. unfold normalize_luns.
  destruct (check_luns_spec luns F) as [(S & _)|(x & I & X & [-> | ->])]; [contradiction| |];
    exists x; cbn [bind]; auto.
Qed.
(** A list cut by the allocation length is refused. *)
Lemma firstn_prefix : forall (a r : bytes) n, (length a <= n)%nat -> slice 0 (length a) (firstn n (a ++ r)%list) = a.
Proof.
  intros a r n H. rewrite firstn_app, firstn_all2 by exact H. apply slice0. reflexivity.
Qed.
Lemma report_luns_cut : forall select alloc allow luns n, 16 <= alloc ->
  8 * zlen luns < 2 ^ 32 -> (n < length (luns_data luns))%nat ->
  yields (report_luns select alloc allow) (Some (firstn n (luns_data luns))) = Err EInstruct.
Proof.
  intros select alloc allow luns n A H N. unfold yields, report_luns. cbn [bind o_finish o_attrs].
  unfold report_luns_finish. change (attr "allocation_length" _) with alloc.
  replace (16 <=? alloc) with true by (symmetry; apply Z.leb_le; lia).
  unfold report_luns_data. pose proof (luns_data_length luns) as LL. unfold zlen in LL.
  rewrite firstn_length_le by lia. destruct (Nat.ltb_spec n 8); [reflexivity|].
  assert (B : be_val (slice 0 4 (firstn n (luns_data luns))) = 8 * zlen luns).
  { unfold luns_data.
    rewrite <- (be_bytes_length 4 (8 * zlen luns)) at 1. rewrite firstn_prefix by (rewrite be_bytes_length; lia).
    apply be_val_be_bytes_small. change (256 ^ Z.of_nat 4) with (2 ^ 32). unfold zlen in *. lia. }
  cbv zeta. rewrite B, (Z.mul_comm 8 (zlen luns)), Z.mod_mul by lia. cbn [negb Z.eqb].
  replace (zlen (firstn n (luns_data luns)) <? 8 + zlen luns * 8) with true; [reflexivity|].
  symmetry. apply Z.ltb_lt. unfold zlen in *. rewrite firstn_length_le by lia. lia.
Qed.

(** * PERSISTENT RESERVE IN *)

Lemma list_n_uints : forall keys rest, Forall (fun x => 0 <= x < 2 ^ 64) keys -> bytes_ok rest ->
  list_n (elem_uint 8) (length keys) (flat_map (be_bytes 8) keys ++ rest)%list =
  Ok (map PInt keys, (8 * length keys)%nat).
Proof.
  induction keys as [|x l IH]; intros rest F O; [reflexivity|].
  inversion F as [|? ? X FL]; subst. cbn [length list_n flat_map]. rewrite <- app_assoc.
  unfold elem_uint at 1. rewrite read_bytes.
  2: lia.
  2:{ apply bytes_ok_app. split; [apply be_bytes_ok|]. apply bytes_ok_app. split; [|exact O].
      clear. induction l; cbn [flat_map]; [constructor|]. apply bytes_ok_app. split; [apply be_bytes_ok|assumption]. }
  rewrite app_length, be_bytes_length. cbn [Nat.add Nat.leb bind].
  unfold ub. rewrite slice0 by apply be_bytes_length. rewrite skipn_exactly by apply be_bytes_length.
  rewrite be_val_be_bytes_small by (cbn; exact X). rewrite IH by assumption. cbn [bind map]. do 2 f_equal. lia.
Qed.

Lemma flat_be_ok : forall n l, bytes_ok (flat_map (be_bytes n) l).
Proof. intros n l. induction l; cbn [flat_map]; [constructor|]. apply bytes_ok_app. split; [apply be_bytes_ok|assumption]. Qed.
Lemma keys_data_ok : forall g keys, bytes_ok (keys_data g keys).
Proof. intros. unfold keys_data. repeat (apply bytes_ok_app; split; auto using be_bytes_ok, flat_be_ok). Qed.
Lemma keys_data_length : forall g keys, length (keys_data g keys) = (8 + 8 * length keys)%nat.
Proof. intros. unfold keys_data. rewrite !app_length, !be_bytes_length, flat_be_length. lia. Qed.

Lemma ub_in : forall a b (l1 l2 r : bytes), length l1 = a -> length l2 = (b - a)%nat -> ub a b (l1 ++ l2 ++ r)%list = be_val l2.
Proof.
  intros a b l1 l2 r <- L. unfold ub, slice. rewrite skipn_app, skipn_all, Nat.sub_diag. cbn [skipn app].
  rewrite <- L, firstn_app, firstn_all, Nat.sub_diag. cbn [firstn]. rewrite app_nil_r. reflexivity.
Qed.

Lemma keys_fields : forall g keys n rest, 0 <= g < 2 ^ 32 -> 8 * zlen keys < 2 ^ 32 -> (8 <= n)%nat ->
  let b := firstn n (keys_data g keys ++ rest)%list in ub 0 4 b = g /\ ub 4 8 b = 8 * zlen keys.
Proof.
  intros g keys n rest G K N b. subst b. unfold keys_data. rewrite <- !app_assoc.
  assert (X : firstn n (be_bytes 4 g ++ be_bytes 4 (8 * zlen keys) ++ flat_map (be_bytes 8) keys ++ rest)%list =
              (be_bytes 4 g ++ be_bytes 4 (8 * zlen keys) ++ firstn (n - 8) (flat_map (be_bytes 8) keys ++ rest))%list).
  { rewrite firstn_app, firstn_all2 by (rewrite be_bytes_length; lia). f_equal.
    rewrite be_bytes_length, firstn_app, firstn_all2 by (rewrite be_bytes_length; lia). f_equal.
    rewrite be_bytes_length. f_equal. lia. }
  rewrite X. split.
  - unfold ub. rewrite slice0 by apply be_bytes_length.
    apply be_val_be_bytes_small. exact G.
  - rewrite (ub_in 4 8 (be_bytes 4 g)) by apply be_bytes_length.
    apply be_val_be_bytes_small. change (256 ^ Z.of_nat 4) with (2 ^ 32). unfold zlen in *. lia.
Qed.

(** The whole parameter data followed by [rest], cut to [n] bytes by the transport. *)
Lemma read_keys_spec : forall alloc g keys rest n, 8 <= alloc ->
  0 <= g < 2 ^ 32 -> Forall (fun x => 0 <= x < 2 ^ 64) keys -> 8 * zlen keys < 2 ^ 32 -> bytes_ok rest ->
  (8 <= n)%nat ->
  yields (pr_in 0 alloc) (Some (firstn n (keys_data g keys ++ rest)%list)) =
  Ok (keys_object g (zlen keys)
        (if (n <? length (keys_data g keys))%nat then PNone else PList (map PInt keys))).
Proof.
  intros alloc g keys rest n A G F K O N. unfold yields, pr_in, assert_.
  replace (8 <=? alloc) with true by (symmetry; apply Z.leb_le; lia). cbn [bind o_finish o_attrs].
  change (attr "service_action" _) with 0. cbn [pr_in_response parsed].
  pose proof (keys_fields g keys n rest G K N) as (B1 & B2).
  pose proof (keys_data_length g keys) as DL.
  set (b := firstn n (keys_data g keys ++ rest)%list) in *.
  assert (OB : bytes_ok b) by (subst b; apply bytes_ok_firstn, bytes_ok_app; split; [apply keys_data_ok|exact O]).
  assert (LB : (8 <= length b)%nat) by (subst b; rewrite firstn_length, app_length; lia).
  unfold unpack, read_keys_response. cbn [c_fields c_name].
  do 2 (uf_step OB; too_short). cbn [unpack_fields]. unfold r_if, r_list_n, plus. cbv beta.
  change (int_attr "additional_length" _) with (ub 4 8 b). rewrite B1, B2.
  destruct (Nat.ltb_spec n (length (keys_data g keys))) as [C|C].
  - replace (8 * zlen keys + 8 <=? zlen b) with false; [reflexivity|].
    symmetry. apply Z.leb_gt. subst b. unfold zlen. rewrite firstn_length, app_length. unfold zlen in *. lia.
  - replace (8 * zlen keys + 8 <=? zlen b) with true.
    2:{ symmetry. apply Z.leb_le. subst b. unfold zlen. rewrite firstn_length, app_length. unfold zlen in *. lia. }
    rewrite (Z.mul_comm 8 (zlen keys)), Z.div_mul by lia.
    unfold zlen at 1. rewrite Nat2Z.id.
    assert (S : slice 8 (Z.to_nat (8 + zlen keys * 8)) b = (flat_map (be_bytes 8) keys ++ [])%list).
    { subst b. unfold keys_data. rewrite <- !app_assoc.
      rewrite firstn_app, firstn_all2 by (rewrite be_bytes_length; lia).
      rewrite be_bytes_length, firstn_app, firstn_all2 by (rewrite be_bytes_length; lia).
      rewrite be_bytes_length. unfold slice.
      rewrite app_assoc, skipn_exactly by (rewrite app_length, !be_bytes_length; reflexivity).
      rewrite app_nil_r. replace (Z.to_nat (8 + zlen keys * 8) - 8)%nat with (length (flat_map (be_bytes 8) keys))
        by (rewrite flat_be_length; unfold zlen; lia).
      rewrite firstn_firstn. replace (Nat.min _ _) with (length (flat_map (be_bytes 8) keys) + 0)%nat
        by (rewrite flat_be_length; lia).
      rewrite firstn_app_2. cbn. apply app_nil_r. }
    rewrite S, list_n_uints by (auto; constructor). cbn [bind app]. unfold keys_object.
    rewrite (Z.mul_comm 8 (zlen keys)). reflexivity.
Qed.

Lemma read_keys_short : forall alloc b, 8 <= alloc -> bytes_ok b -> zlen b < 8 ->
  yields (pr_in 0 alloc) (Some b) = Err EInstruct.
Proof.
  intros alloc b A O L. unfold yields, pr_in, assert_.
  replace (8 <=? alloc) with true by (symmetry; apply Z.leb_le; lia). cbn [bind o_finish o_attrs].
  change (attr "service_action" _) with 0. cbn [pr_in_response parsed].
  unfold unpack, read_keys_response. cbn [c_fields c_name]. unfold zlen in L.
  uf_step O. destruct (4 <=? length b)%nat; [|reflexivity]. uf_step O. too_short. reflexivity.
Qed.


Lemma read_reservation_spec : forall alloc b, 8 <= alloc -> bytes_ok b ->
  yields (pr_in 1 alloc) (Some b) =
  if (zlen b <? 8) || (zlen b =? 21) then Err EInstruct
  else Ok (PObj "PersistentReserveInReadReservationResponse"
             [("pr_generation", PInt (ub 0 4 b)); ("additional_length", PInt (ub 4 8 b));
              ("reservation_key", from 16 b (ub 8 16 b)); ("obsolete_1", from 20 b (ub 16 20 b));
              ("reserved_1", from 21 b (ub 20 21 b)); ("pr_type", from 21 b (bf 21 0 4 b));
              ("scope", from 21 b (bf 21 4 4 b)); ("obsolete_2", from 24 b (ub 22 24 b))]).
Proof.
  intros alloc b A O. unfold yields, pr_in, assert_.
  replace (8 <=? alloc) with true by (symmetry; apply Z.leb_le; lia). cbn [bind o_finish o_attrs].
  change (attr "service_action" _) with 1. cbn [pr_in_response parsed].
  unfold unpack, read_reservation_response. cbn [c_fields c_name].
  destruct (Z.ltb_spec (zlen b) 8) as [L|L]; cbn [orb].
  { unfold zlen in L. uf_step O. destruct (4 <=? length b)%nat; [|reflexivity]. uf_step O. too_short. reflexivity. }
  assert (8 <= length b)%nat by (unfold zlen in L; lia).
  do 2 (uf_step O; too_short).
  unfold from, longer, r_if, unpack_fields, r_uint, r_int.
  rewrite !read_bytes, !read_bits by (auto; lia). cbn [Nat.sub].
  unfold Nat.ltb.
  destruct (Z.eqb_spec (zlen b) 21) as [E|E].
  - rewrite E. unfold zlen in E. cbn [Z.leb Z.compare Pos.compare Pos.compare_cont]. replace (length b) with 21%nat by lia. reflexivity.
  - destruct (Z.leb_spec 16 (zlen b)) as [X|X]; destruct (Z.leb_spec 20 (zlen b)) as [Y|Y]; try lia;
    destruct (Z.leb_spec 21 (zlen b)) as [U|U]; try lia; destruct (Z.leb_spec 24 (zlen b)) as [V|V]; try lia;
    unfold zlen in *; repeat too_short; cbn [bind app]; reflexivity.
Qed.
