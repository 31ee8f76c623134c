(** Consequences of the lemmas about the command classes, in the form in which PropCdb.v
    states them. *)
From Coq Require Import String ZArith List Bool Lia.
From Verif Require Import Base BaseFacts OsCommon Instruct Command CdbBlock CdbPrimary SpecDevice SpecCdb
  CdbBlockFacts CdbSixFacts UnmapFacts CdbPrimaryFacts CdbReserveFacts CdbPersistFacts CdbAllFacts
  CdbResponseFacts RtpgFacts InstructFacts CdbLemmas.
Import ListNotations.
Local Open Scope string_scope.
Local Open Scope Z_scope.

Lemma asks_ok : forall r ok n op k, asks r ok n op -> r = Ok k ->
  ok /\ exists cdb, k = ReadCmd cdb n /\ interpret cdb = Some op.
Proof.
  intros r ok n op k H ->. destruct k as [cdb m|]; cbn in H; [|contradiction].
  destruct H as [O [-> I]]. split; [exact O|]. exists cdb. auto.
Qed.
Lemma tells_ok : forall r ok d op k, tells r ok d op -> r = Ok k ->
  ok /\ exists cdb, k = WriteCmd cdb d /\ interpret cdb = Some op.
Proof.
  intros r ok n op k H ->. destruct k as [|cdb m]; cbn in H; [contradiction|].
  destruct H as [O [-> I]]. split; [exact O|]. exists cdb. auto.
Qed.

Lemma read_size : forall c lba tl bs kw k,
  In c [Read10 lba tl bs kw; Read12 lba tl bs kw; Read16 lba tl bs kw] -> proper c -> issued c = Ok k ->
  exists cdb, k = ReadCmd cdb (tl * bs).
Proof.
  intros c lba tl bs kw k I P E. rewrite (Z.mul_comm tl bs).
  cbn in I; destruct I as [<- | [<- | [<- | []]]]; unfold issued in E; cbn [constructed] in E; rewrite with_settings_request in E.
  - destruct (asks_ok _ _ _ _ _ (read10_spec lba tl bs kw P) E) as [_ [cdb [-> _]]]. eauto.
  - destruct (asks_ok _ _ _ _ _ (read12_spec lba tl bs kw P) E) as [_ [cdb [-> _]]]. eauto.
  - destruct (asks_ok _ _ _ _ _ (read16_spec lba tl bs kw P) E) as [_ [cdb [-> _]]]. eauto.
Qed.

Lemma read6_size : forall lba tl bs k, 1 <= bs -> 1 <= tl -> issued (Read6 lba tl bs) = Ok k ->
  exists cdb, k = ReadCmd cdb (tl * bs).
Proof.
  intros lba tl bs k B T E. destruct (asks_ok _ _ _ _ _ (read6_spec lba tl bs) E) as [_ [cdb [-> _]]].
  exists cdb. destruct (Z.eqb_spec (bs * tl) 0); [nia|]. f_equal. lia.
Qed.

Lemma read6_256_size : forall lba bs k, issued (Read6 lba 0 bs) = Ok k ->
  exists cdb, k = ReadCmd cdb 131072 /\ interpret cdb = Some (OpRead lba 256 no_flags) /\
    (131072 = 256 * bs <-> bs = 512).
Proof.
  intros lba bs k E. destruct (asks_ok _ _ _ _ _ (read6_spec lba 0 bs) E) as [_ [cdb [-> I]]].
  exists cdb. rewrite Z.mul_0_r. cbn [Z.eqb] in *. split; [reflexivity|]. split; [exact I|lia].
Qed.

Lemma read6_size_refuted :
  ~ forall lba tl bs cdb n b f, 1 <= bs -> issued (Read6 lba tl bs) = Ok (ReadCmd cdb n) ->
      interpret cdb = Some (OpRead lba b f) -> n = b * bs.
Proof.
  intros H. specialize (H 0 0 4096 [8; 0; 0; 0; 0; 0] 131072 256 no_flags ltac:(lia) eq_refl eq_refl). discriminate H.
Qed.

Lemma write_whole_blocks : forall c lba buffer bs kw cdb d,
  In c [Write6 lba buffer bs; Write10 lba buffer bs kw; Write12 lba buffer bs kw; Write16 lba buffer bs kw] ->
  proper c -> issued c = Ok (WriteCmd cdb d) ->
  d = buffer /\ exists n f, interpret cdb = Some (OpWrite lba n f) /\ n * bs = zlen buffer.
Proof.
  intros c lba buffer bs kw cdb d I P E.
  cbn in I; destruct I as [<- | [<- | [<- | [<- | []]]]]; unfold issued in E; cbn [constructed proper] in *;
    try rewrite with_settings_request in E.
  - destruct (tells_ok _ _ _ _ _ (write6_spec lba buffer bs P) E) as [O [cdb' [Q J]]].
    injection Q as -> ->. split; [reflexivity|]. do 2 eexists. split; [exact J|].
    destruct O as [_ [O _]]. pose proof (Z.div_mod (zlen buffer) bs). lia.
  - destruct (tells_ok _ _ _ _ _ (write10_spec lba buffer bs kw (proj1 P) (proj2 P)) E) as [O [cdb' [Q J]]].
    injection Q as -> ->. split; [reflexivity|]. do 2 eexists. split; [exact J|].
    destruct O as [_ [O _]]. pose proof (Z.div_mod (zlen buffer) bs). lia.
  - destruct (tells_ok _ _ _ _ _ (write12_spec lba buffer bs kw (proj1 P) (proj2 P)) E) as [O [cdb' [Q J]]].
    injection Q as -> ->. split; [reflexivity|]. do 2 eexists. split; [exact J|].
    destruct O as [_ [O _]]. pose proof (Z.div_mod (zlen buffer) bs). lia.
  - destruct (tells_ok _ _ _ _ _ (write16_spec lba buffer bs kw (proj1 P) (proj2 P)) E) as [O [cdb' [Q J]]].
    injection Q as -> ->. split; [reflexivity|]. do 2 eexists. split; [exact J|].
    destruct O as [_ [O _]]. pose proof (Z.div_mod (zlen buffer) bs). lia.
Qed.

Lemma compare_wrong_buffer : forall lba n bs, 0 <= lba < 2 ^ 64 -> 0 <= n < 2 ^ 8 -> 1 <= bs ->
  exists buffer cdb, zlen buffer <> 2 * n * bs /\
    issued (CompareAndWrite lba buffer n bs []) = Ok (WriteCmd cdb buffer).
Proof.
  intros lba n bs L N B. set (buffer := repeat 0 (Z.to_nat ((2 * n + 1) * bs))).
  assert (Z1 : zlen buffer = (2 * n + 1) * bs) by (unfold zlen, buffer; rewrite repeat_length; nia).
  exists buffer. unfold issued. cbn [constructed]. rewrite with_settings_request.
  pose proof (compare_and_write_spec lba buffer n bs [] (Forall_nil _) B) as H.
  destruct (do o <- compare_and_write lba buffer n bs; request (assigned [] o)) as [[|cdb d]|e] eqn:E; cbn [tells] in H.
  - contradiction.
  - destruct H as [_ [-> _]]. exists cdb. split; [nia|reflexivity].
  - exfalso. apply H. split; [exact L|]. split; [exact N|]. split.
    + rewrite Z1. apply Z.mod_mul. lia.
    + unfold settings_fit, rw10_widths, setting. cbn [lookup]. repeat constructor; cbn; lia.
Qed.

Lemma unmap_ranges_sent : forall ranges kw, only_sets ["GROUP_NUMBER"] kw ->
  match (do o <- unmap ranges; request (assigned kw o)) with
  | Ok (WriteCmd cdb p) =>
      unmap_fits ranges kw /\ interpret cdb = Some (OpUnmap 0 (setting "GROUP_NUMBER" kw) (zlen p)) /\
      zlen p = 8 + 16 * zlen ranges /\ unmap_block_descriptor_length p = 16 * zlen ranges /\
      unmap_descriptors p = ranges
  | Ok (ReadCmd _ _) => False
  | Err _ => ~ unmap_fits ranges kw
  end.
Proof.
  intros ranges kw K. pose proof (unmap_spec ranges kw K) as H.
  destruct (do o <- unmap ranges; request (assigned kw o)) as [[|cdb p]|]; tauto.
Qed.
Lemma unmap_length_sent : forall ranges kw cdb p, only_sets ["GROUP_NUMBER"] kw ->
  issued (Unmap ranges kw) = Ok (WriteCmd cdb p) -> unmap_data_length p = (zlen p - 2) + 1.
Proof.
  intros ranges kw cdb p K E. pose proof (unmap_spec ranges kw K) as H.
  unfold issued in E. cbn [constructed] in E. rewrite with_settings_request in E. rewrite E in H.
  destruct H as [_ [_ [_ [_ [_ H]]]]]. lia.
Qed.
Lemma unmap_length_refuted :
  ~ forall ranges cdb p, issued (Unmap ranges []) = Ok (WriteCmd cdb p) -> unmap_data_length p = zlen p - 2.
Proof. intros H. specialize (H [] _ _ eq_refl). vm_compute in H. discriminate H. Qed.

Lemma capacity10_yields : forall lba pmi b, bytes_ok b ->
  yields (read_capacity10 lba pmi) (Some b) =
  if 8 <=? zlen b
  then Ok (PObj "ReportReadCapacityData10"
             [("last_logical_block_address", PInt (ub 0 4 b)); ("block_length_in_bytes", PInt (ub 4 8 b))])
  else Err EInstruct.
Proof. intros. apply read_capacity10_response. assumption. Qed.
Lemma capacity16_yields : forall lba pmi b, bytes_ok b ->
  yields (read_capacity16 lba pmi) (Some b) =
  if 32 <=? zlen b
  then Ok (PObj "ReportReadCapacityData16"
             [("last_logical_block_address", PInt (ub 0 8 b)); ("block_length_in_bytes", PInt (ub 8 12 b));
              ("prot_en", PInt (bf 12 0 1 b)); ("p_type", PInt (bf 12 1 3 b));
              ("logical_blocks_per_physical_block", PInt (bf 13 0 4 b)); ("p_i_exponent", PInt (bf 13 4 4 b));
              ("lowest_aligned_lba_msb", PInt (bf 14 0 6 b)); ("troz", PInt (bf 14 6 1 b)); ("tpe", PInt (bf 14 7 1 b));
              ("lowest_aligned_lba_lsb", PInt (ub 15 16 b))])
  else Err EInstruct.
Proof. intros. apply read_capacity16_response. assumption. Qed.

Lemma aptpl_refuted :
  ~ forall sa key sakey pr_type aptpl cdb p, 0 <= sa <= 8 -> sa <> 7 -> 0 <= aptpl < 2 ->
      issued (PrOutBasic sa key sakey pr_type [("activate_persist_through_power_loss", aptpl)]) = Ok (WriteCmd cdb p) ->
      exists a b, pr_basic p = Some (PrParameters key sakey aptpl a b).
Proof.
  intros H.
  destruct (issued (PrOutBasic 0 0 1 0 [("activate_persist_through_power_loss", 1)])) as [[|cdb p]|] eqn:E;
    vm_compute in E; try discriminate E. injection E as <- <-.
  destruct (H 0 0 1 0 1 _ _ ltac:(lia) ltac:(lia) ltac:(lia) ltac:(vm_compute; reflexivity)) as [a [b X]].
  vm_compute in X. discriminate X.
Qed.

Lemma read_keys_needed : forall alloc g keys rest n, 8 <= alloc ->
  0 <= g < 2 ^ 32 -> Forall (fun x => 0 <= x < 2 ^ 64) keys -> 8 * zlen keys < 2 ^ 32 -> bytes_ok rest ->
  (8 <= n)%nat ->
  let v := keys_object g (zlen keys)
        (if (n <? length (keys_data g keys))%nat then PNone else PList (map PInt keys)) in
  yields (pr_in 0 alloc) (Some (firstn n (keys_data g keys ++ rest)%list)) = Ok v /\
  required_allocation_length v = Ok (zlen (keys_data g keys)).
Proof.
  intros. split; [apply read_keys_spec; assumption|].
  unfold v, keys_object, required_allocation_length. cbn [String.eqb Ascii.eqb Bool.eqb].
  unfold zlen at 2. rewrite keys_data_length. unfold int_attr. cbn [lookup String.eqb Ascii.eqb Bool.eqb].
  f_equal. unfold zlen. lia.
Qed.

Lemma third_party_distinct : forall a b k, 0 <= a -> 0 <= b ->
  (issued (Reserve10 a) = Ok k /\ issued (Reserve10 b) = Ok k) \/
  (issued (Release10 a) = Ok k /\ issued (Release10 b) = Ok k) -> a = b.
Proof.
  intros a b k A B [[E1 E2]|[E1 E2]].
  - destruct (tells_ok _ _ _ _ _ (reserve10_spec a) E1) as [O1 [c1 [Q1 I1]]].
    destruct (tells_ok _ _ _ _ _ (reserve10_spec b) E2) as [O2 [c2 [Q2 I2]]].
    rewrite Q1 in Q2. injection Q2 as <- D.
    apply (third_party_inj OpReserve10); try lia; [|exact D|congruence].
    intros x y z u x' y' z' u' Q. injection Q. auto.
  - destruct (tells_ok _ _ _ _ _ (release10_spec a) E1) as [O1 [c1 [Q1 I1]]].
    destruct (tells_ok _ _ _ _ _ (release10_spec b) E2) as [O2 [c2 [Q2 I2]]].
    rewrite Q1 in Q2. injection Q2 as <- D.
    apply (third_party_inj OpRelease10); try lia; [|exact D|congruence].
    intros x y z u x' y' z' u' Q. injection Q. auto.
Qed.
Lemma third_party_negative :
  ~ forall a b k, issued (Reserve10 a) = Ok k -> issued (Reserve10 b) = Ok k -> a = b.
Proof.
  intros H. specialize (H 0 (-5) (WriteCmd [86; 0; 0; 0; 0; 0; 0; 0; 0; 0] [])
    ltac:(vm_compute; reflexivity) ltac:(vm_compute; reflexivity)). discriminate H.
Qed.

Lemma rtpg_extended_refuted :
  ~ forall alloc t groups, Forall group_ok groups -> 0 <= t < 256 ->
      exists l, yields (rtpg 1 alloc) (Some (extended_data t groups)) =
        Ok (groups_object "TargetPortGroupExtendedResponse" l groups).
Proof.
  intros H. destruct (H 100 0 [PortGroup 1 1 15 258 0 [5]]) as [l E].
  - constructor; [|constructor]. unfold group_ok. cbn. repeat split; try lia. constructor; [lia|constructor].
  - lia.
  - vm_compute in E. discriminate E.
Qed.

(** * How arguments are refused *)

Lemma pack_fields_err : forall n fs a e, pack_fields n fs a = Err e -> e = EInstruct.
Proof.
  intros n fs a e. unfold pack_fields.
  assert (W : forall fs e, field_writes fs a = Err e -> e = EInstruct).
  { induction fs0 as [|f r IH]; intros e0; cbn [field_writes]; [discriminate|].
    unfold field_value, encode.
    destruct (f_init f); [destruct (lookup (f_name f) a)|destruct (lookup (f_name f) a)|]; cbn [bind]; try (intros [= <-]; reflexivity);
      (destruct (in_range _ _ _); cbn [bind]; [|intros [= <-]; reflexivity]);
      (destruct (field_writes r a) eqn:F; cbn [bind]; [discriminate|intros [= <-]; eauto]). }
  destruct (field_writes fs a) eqn:F; cbn [bind]; [discriminate|intros [= <-]; eauto].
Qed.
Lemma pack_struct_err : forall l a e, pack_struct l a = Err e -> e = EInstruct.
Proof. intros l a e. apply pack_fields_err. Qed.
Lemma pack_buffer_err : forall l a e, pack_buffer l a = Err e -> e = EInstruct.
Proof. intros l a e. apply pack_fields_err. Qed.

Lemma unmap_blocks_err : forall l e, unmap_blocks l = Err e -> e = EInstruct.
Proof.
  induction l as [|r l IH]; intros e; cbn [unmap_blocks]; [discriminate|].
  unfold unmap_block. destruct (pack_struct _ _) eqn:P; cbn [bind]; [|intros [= <-]; eapply pack_struct_err; exact P].
  destruct (unmap_blocks l) eqn:U; cbn [bind]; [discriminate|intros [= <-]; eauto].
Qed.

Lemma request_err : forall attrs pk rq rs e,
  (forall a e, pk a = Err e -> e = EInstruct) -> request (CdbObject attrs pk rq rs) = Err e -> e = EInstruct.
Proof.
  intros attrs pk rq rs e H. unfold request. cbn [o_datagram o_attrs].
  destruct (pk attrs) eqn:P; cbn [bind]; [discriminate|]. intros [= <-]. eapply H. exact P.
Qed.
Lemma request_assigned_err : forall kw attrs pk rq rs e,
  (forall a e, pk a = Err e -> e = EInstruct) -> request (assigned kw (CdbObject attrs pk rq rs)) = Err e -> e = EInstruct.
Proof. intros. unfold assigned in *. eapply request_err; eauto. Qed.

Ltac packed_err :=
  let e := fresh "e" in intros e;
  first [apply request_assigned_err | apply request_err];
  first [exact (pack_struct_err _) | exact (pack_buffer_err _)].
Ltac asserted :=
  unfold assert_;
  repeat match goal with
  | |- context [bind (if ?b then Ok tt else Err _) _] =>
      let A := fresh "A" in
      destruct b eqn:A; cbn [bind];
      [| left; split; [|reflexivity];
         rewrite ?andb_false_iff, ?orb_false_iff, ?Z.ltb_ge, ?Z.leb_gt, ?Z.eqb_neq in A; lia ]
  end;
  rewrite ?andb_true_iff, ?orb_true_iff, ?Z.ltb_lt, ?Z.leb_le, ?Z.eqb_eq in *.
Ltac divided :=
  match goal with B : 1 <= ?bs |- context [zlen ?b mod ?bs] =>
    unfold py_div, py_mod; replace (bs =? 0) with false by (symmetry; apply Z.eqb_neq; lia);
    cbn [bind];
    let q := fresh "q" in let r := fresh "r" in
    set (q := zlen b / bs) in *; set (r := zlen b mod bs) in *;
    assert (0 <= q) by (apply Z.div_pos; unfold zlen; lia);
    clearbody q r
  end.

Lemma constructed_spec : forall c, proper c ->
  (beyond_at_construction c /\ constructed c = Err EAssertion) \/
  (~ beyond_at_construction c /\
   match constructed c with
   | Ok o => match c with
             | CompareAndWrite lba _ n _ _ =>
                 (beyond_at_execution c -> request o = Err EAssertion) /\
                 (~ beyond_at_execution c -> forall e, request o = Err e -> e = EInstruct)
             | _ => forall e, request o = Err e -> e = EInstruct
             end
   | Err e => packs_at_construction c /\ e = EInstruct
   end).
Proof.
  intros c P. destruct c; cbn [proper] in P;
    cbn [beyond_at_construction beyond_at_execution packs_at_construction constructed].
  - unfold read6. asserted. right. split; [lia|]. packed_err.
  - unfold with_settings, read10. asserted. right. split; [lia|]. packed_err.
  - unfold with_settings, read12. asserted. right. split; [lia|]. packed_err.
  - unfold with_settings, read16. asserted. right. split; [lia|]. packed_err.
  - unfold write6. divided. asserted. right. split; [lia|]. packed_err.
  - destruct P as [_ P]. unfold with_settings, write10. divided. asserted. right. split; [lia|]. packed_err.
  - destruct P as [_ P]. unfold with_settings, write12. divided. asserted. right. split; [lia|]. packed_err.
  - destruct P as [_ P]. unfold with_settings, write16. divided. asserted. right. split; [lia|]. packed_err.
  - unfold with_settings, write_same10. asserted. right. split; [lia|]. packed_err.
  - unfold with_settings, write_same16. asserted. right. split; [lia|]. packed_err.
  - destruct P as [K P]. unfold with_settings, compare_and_write. divided. asserted. right. split; [lia|].
    unfold request, assigned; cbn [o_attrs o_datagram o_request bind]. unfold rw10_names in K.
    unfold attr. rewrite !lookup_app. no_lookup K.
    change (lookup "logical_block_address" [("logical_block_address", lba); ("number_of_logical_blocks", n)]) with (Some lba).
    change (lookup "number_of_logical_blocks" [("logical_block_address", lba); ("number_of_logical_blocks", n)]) with (Some n).
    cbv iota. unfold assert_.
    destruct (Z.ltb_spec lba (2 ^ 64)); cbn [bind]; [|split; [reflexivity|lia]].
    destruct (Z.ltb_spec n (2 ^ 8)); cbn [bind]; [|split; [reflexivity|lia]].
    split; [lia|]. intros _ e. destruct (pack_struct _ _) eqn:K2; cbn [bind]; [discriminate|].
    intros [= <-]. eapply pack_struct_err; exact K2.
  - right. split; [tauto|]. unfold with_settings, unmap.
    destruct (unmap_blocks ranges) eqn:U; cbn [bind]; [|split; [exact Logic.I|eapply unmap_blocks_err; exact U]].
    unfold unmap_header. destruct (pack_struct unmap_header_fields _) eqn:H; cbn [bind];
      [packed_err|split; [exact Logic.I|eapply pack_struct_err; exact H]].
  - right. split; [tauto|]. unfold read_capacity10. packed_err.
  - right. split; [tauto|]. unfold read_capacity16. packed_err.
  - right. split; [tauto|]. unfold test_unit_ready. packed_err.
  - right. split; [tauto|]. unfold report_luns. packed_err.
  - unfold rtpg. asserted. right. split; [lia|]. packed_err.
  - right. split; [tauto|]. unfold with_settings, log_sense. cbn [bind]. packed_err.
  - right. split; [tauto|]. unfold receive_copy. packed_err.
  - right. split; [tauto|]. unfold receive_diagnostic. packed_err.
  - right. split; [tauto|]. unfold inquiry. packed_err.
  - right. split; [tauto|]. unfold reserve6. packed_err.
  - right. split; [tauto|]. unfold release6. packed_err.
  - right. split; [tauto|]. unfold reserve10, long_id_parameters. destruct (0 <? id); [|packed_err].
    destruct (id <? 255); [packed_err|]. destruct (pack_buffer _ _) eqn:H; cbn [bind]; [packed_err|].
    split; [exact Logic.I|eapply pack_buffer_err; exact H].
  - right. split; [tauto|]. unfold release10, long_id_parameters. destruct (0 <? id); [|packed_err].
    destruct (id <? 255); [packed_err|]. destruct (pack_buffer _ _) eqn:H; cbn [bind]; [packed_err|].
    split; [exact Logic.I|eapply pack_buffer_err; exact H].
  - unfold pr_in. asserted. right. split; [lia|]. packed_err.
  - right. split; [tauto|]. unfold pr_out. destruct P as [S [N _]].
    assert (C : parameter_list_class_of sa = Some Basic).
    { assert (D : sa = 0 \/ sa = 1 \/ sa = 2 \/ sa = 3 \/ sa = 4 \/ sa = 5 \/ sa = 6 \/ sa = 8) by lia.
      repeat (destruct D as [->|D]; [reflexivity|]). subst; reflexivity. }
    rewrite C. destruct (pack_buffer basic_parameter_list_fields _) eqn:H; cbn [bind]; [packed_err|].
    split; [exact Logic.I|eapply pack_buffer_err; exact H].
  - right. split; [tauto|]. unfold pr_out. cbn [parameter_list_class_of]. unfold register_and_move_list, pack_transport_id.
    destruct (pack_buffer transport_id_fields _) eqn:H; cbn [bind]; [|split; [exact Logic.I|eapply pack_buffer_err; exact H]].
    destruct (pack_buffer register_and_move_fields _) eqn:H2; cbn [bind]; [packed_err|].
    split; [exact Logic.I|eapply pack_buffer_err; exact H2].
Qed.

Lemma constructor_refuses : forall c, proper c -> (beyond_at_construction c <-> constructed c = Err EAssertion).
Proof.
  intros c P. destruct (constructed_spec c P) as [[B E]|[B M]]; [tauto|].
  split; [tauto|]. intros E. rewrite E in M. destruct M as [_ M]. discriminate M.
Qed.
Lemma constructor_accepts : forall c, proper c -> ~ beyond_at_construction c -> ~ packs_at_construction c ->
  exists o, constructed c = Ok o.
Proof.
  intros c P B K. destruct (constructed_spec c P) as [[B' E]|[_ M]]; [tauto|].
  destruct (constructed c); [eauto|tauto].
Qed.
Lemma execute_refuses : forall c e, proper c -> issued c = Err e ->
  (beyond_at_construction c \/ beyond_at_execution c) /\ e = EAssertion \/
  ~ beyond_at_construction c /\ ~ beyond_at_execution c /\ e = EInstruct.
Proof.
  intros c e P E. unfold issued in E.
  destruct (constructed_spec c P) as [[B F]|[B M]].
  - rewrite F in E. cbn [bind] in E. injection E as <-. auto.
  - destruct (constructed c) as [o|e']; cbn [bind] in E.
    + destruct c; cbn [beyond_at_execution] in *; try (right; split; [exact B|]; split; [tauto|]; apply M; exact E).
      destruct M as [M1 M2].
      destruct (Z.le_gt_cases (2 ^ 64) lba) as [L|L]; [left; split; [right; left; exact L|]; rewrite M1 in E by (left; exact L); congruence|].
      destruct (Z.le_gt_cases (2 ^ 8) n) as [L2|L2]; [left; split; [right; right; exact L2|]; rewrite M1 in E by (right; exact L2); congruence|].
      right. split; [exact B|]. assert (N : ~ (2 ^ 64 <= lba \/ 2 ^ 8 <= n)) by lia. split; [exact N|]. apply M2; [exact N|exact E].
    + destruct M as [K ->]. injection E as <-. right. split; [exact B|]. split; [|reflexivity].
      destruct c; cbn [packs_at_construction beyond_at_execution] in *; tauto.
Qed.
