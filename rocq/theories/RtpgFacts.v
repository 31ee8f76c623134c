(** The results of REPORT TARGET PORT GROUPS. *)
From Coq Require Import String ZArith List Bool Lia.
From Verif Require Import Base BaseFacts OsCommon Instruct InstructFacts Command CdbPrimary SpecDevice SpecCdb CdbLemmas ResponseLemmas CdbResponseFacts.
Import ListNotations.
Local Open Scope string_scope.
Local Open Scope Z_scope.


Lemma port_data_ok : forall p, bytes_ok (port_data p).
Proof.
  intros p. apply (bytes_ok_app [0; 0] (be_bytes 2 p)).
  split; [repeat constructor; unfold byte_ok; lia|apply be_bytes_ok].
Qed.
Lemma port_decodes : forall p, 0 <= p < 65536 ->
  decodes port_data port_object (elem_obj target_port_descriptor 4) p.
Proof.
  intros p P. split; [discriminate|]. split.
  { apply port_data_ok. }
  intros rest R. unfold elem_obj, unpack, target_port_descriptor. cbn [c_fields c_name].
  assert (O : bytes_ok (port_data p ++ rest)%list).
  { apply bytes_ok_app. split; [apply port_data_ok|exact R]. }
  assert (L : (4 <= length (port_data p ++ rest))%nat) by (rewrite app_length; cbn; lia).
  uf_step O. too_short. cbn [bind unpack_fields]. 
  change (port_data p ++ rest)%list with ([0; 0] ++ be_bytes 2 p ++ rest)%list.
  rewrite (ub_in 2 4 [0; 0] (be_bytes 2 p)) by (try reflexivity; apply be_bytes_length).
  rewrite be_val_be_bytes_small by exact P. reflexivity.
Qed.
Lemma port_data_length : forall l, length (flat_map port_data l) = (4 * length l)%nat.
Proof. induction l as [|p l IH]; [reflexivity|]. cbn [flat_map length]. rewrite app_length, IH. cbn [port_data length]. rewrite be_bytes_length. lia. Qed.

Lemma group_data_ok : forall g, group_ok g -> bytes_ok (group_data g).
Proof.
  intros g (A & B & C & D & E & F & P). unfold group_data. repeat rewrite bytes_ok_app.
  split; [repeat constructor; unfold byte_ok; lia|]. split; [apply be_bytes_ok|].
  split; [repeat constructor; unfold byte_ok, zlen in *; lia|].
  apply (enc_ok port_data port_object (elem_obj target_port_descriptor 4)).
  eapply Forall_impl; [|exact P]. intros p. apply port_decodes.
Qed.
Lemma group_data_length : forall g, length (group_data g) = (8 + 4 * length (g_ports g))%nat.
Proof. intros g. unfold group_data. rewrite !app_length, be_bytes_length, port_data_length. cbn [length]. lia. Qed.

Lemma sb_small : forall a b buf, ub a b buf < 2 ^ (8 * Z.of_nat (b - a) - 1) -> sb a b buf = ub a b buf.
Proof. intros a b buf H. unfold sb. apply Z.leb_gt in H. rewrite H. reflexivity. Qed.

Lemma group_decodes : forall g, group_ok g -> g_status g < 128 -> zlen (g_ports g) < 128 ->
  decodes group_data group_object rtpg_element g.
Proof.
  intros g G S N. split; [unfold group_data; discriminate|]. split; [apply group_data_ok; exact G|].
  intros rest R. unfold rtpg_element, unpack, target_port_group_descriptor. cbn [c_fields c_name].
  pose proof (group_data_length g) as GL.
  assert (O : bytes_ok (group_data g ++ rest)%list) by (apply bytes_ok_app; split; [apply group_data_ok; exact G|exact R]).
  assert (L : (8 <= length (group_data g ++ rest))%nat) by (rewrite app_length; lia).
  do 12 (uf_step O; too_short).
  set (b := (group_data g ++ rest)%list) in *.
  destruct G as (GA & GB & GC & GD & GE & GF & GP).
  assert (B0 : byte_at 0 b = g_state g + 128 * g_pref g) by reflexivity.
  assert (B1 : byte_at 1 b = g_supported g) by reflexivity.
  assert (U2 : ub 2 4 b = g_number g).
  { subst b. unfold group_data. rewrite <- !app_assoc.
    rewrite (ub_in 2 4 [_; _] (be_bytes 2 (g_number g))) by (try reflexivity; apply be_bytes_length).
    apply be_val_be_bytes_small. exact GD. }
  assert (U5 : ub 5 6 b = g_status g) by reflexivity.
  assert (U7 : ub 7 8 b = zlen (g_ports g)) by reflexivity.
  rewrite !sb_small by (rewrite ?U5, ?U7; cbn; lia). rewrite U2, U5, U7.
  unfold bf. rewrite B0, B1. clear B0 B1.
  cbn [unpack_fields]. unfold r_list_n, to_end. cbv beta.
  change (int_attr "target_port_count" (_ :: _)) with (zlen (g_ports g)).
  unfold zlen. rewrite Nat2Z.id.
  assert (SL : slice 8 (Z.to_nat (Z.of_nat (length b))) b = (flat_map port_data (g_ports g) ++ rest)%list).
  { unfold slice. rewrite firstn_all2 by (rewrite skipn_length; lia). subst b. reflexivity. }
  assert (PD : Forall (decodes port_data port_object (elem_obj target_port_descriptor 4)) (g_ports g))
    by (eapply Forall_impl; [|exact GP]; intros p; apply port_decodes).
  rewrite SL, (list_n_enc port_data port_object) by assumption.
  cbn [bind app]. change (int_attr "target_port_count" _) with (Z.of_nat (length (g_ports g))). rewrite Nat2Z.id, GL.
  unfold group_object, bit, zlen. change (2 ^ Z.of_nat 0) with 1. change (2 ^ Z.of_nat 1) with 2.
  change (2 ^ Z.of_nat 4) with 16. change (2 ^ Z.of_nat 7) with 128.
  replace (((g_state g + 128 * g_pref g) / 1) mod 16) with (g_state g)
    by (Z.to_euclidean_division_equations; lia).
  replace (((g_state g + 128 * g_pref g) / 128) mod 2) with (g_pref g)
    by (Z.to_euclidean_division_equations; lia).
  reflexivity.
Qed.


Lemma rtpg_length_only_spec : forall alloc groups rest,
  Forall (fun g => group_ok g /\ g_status g < 128 /\ zlen (g_ports g) < 128) groups ->
  zlen (flat_map group_data groups) < 2 ^ 31 -> bytes_ok rest ->
  yields (rtpg 0 alloc) (Some (length_only_data groups ++ rest)%list) =
  Ok (groups_object "TargetPortGroupLengthOnlyResponse"
        [("data_length", PInt (zlen (flat_map group_data groups)))] groups).
Proof.
  intros alloc groups rest F L R. unfold yields, rtpg. cbn [Z.eqb orb assert_ bind o_finish o_attrs].
  change (attr "parameter_data_format" _) with 0. cbn [Z.eqb parsed].
  assert (D : Forall (decodes group_data group_object rtpg_element) groups).
  { eapply Forall_impl; [|exact F]. intros g (A & B & C). apply group_decodes; assumption. }
  pose proof (enc_ok _ _ _ _ D) as DO.
  unfold length_only_data. set (d := flat_map group_data groups) in *. cbv zeta.
  set (b := ((be_bytes 4 (zlen d) ++ d) ++ rest)%list).
  assert (O : bytes_ok b) by (subst b; repeat (apply bytes_ok_app; split; auto using be_bytes_ok)).
  assert (LB : length b = (4 + length d + length rest)%nat) by (subst b; rewrite !app_length, be_bytes_length; lia).
  unfold unpack, rtpg_length_only. cbn [c_fields c_name].
  uf_step O. too_short.
  assert (U : ub 0 4 b = zlen d).
  { subst b. rewrite <- app_assoc. unfold ub. rewrite slice0 by apply be_bytes_length.
    apply be_val_be_bytes_small. change (256 ^ Z.of_nat 4) with (2 ^ 32). unfold zlen in *. lia. }
  rewrite sb_small by (rewrite U; exact L). rewrite U.
  cbn [unpack_fields]. unfold r_list, plus. cbv beta. change (int_attr "data_length" _) with (zlen d).
  assert (SL : slice 4 (Z.to_nat (4 + zlen d)) b = d).
  { subst b. unfold slice. rewrite <- app_assoc, skipn_exactly by apply be_bytes_length.
    replace (Z.to_nat (4 + zlen d) - 4)%nat with (length d + 0)%nat by (unfold zlen; lia).
    rewrite firstn_app_2. cbn. apply app_nil_r. }
  rewrite SL. subst d. rewrite (read_list_enc group_data group_object) by exact D. reflexivity.
Qed.


Lemma misread_element : forall g r, group_ok g -> bytes_ok r ->
  rtpg_element (0 :: group_data g ++ r)%list = Ok (group_object (misread g), 8%nat).
Proof.
  intros g r G R. unfold rtpg_element, unpack, target_port_group_descriptor. cbn [c_fields c_name].
  pose proof (group_data_length g) as GL.
  assert (O : bytes_ok (0 :: group_data g ++ r)%list).
  { constructor; [unfold byte_ok; lia|]. apply bytes_ok_app. split; [apply group_data_ok; exact G|exact R]. }
  assert (L : (8 <= length (0%Z :: group_data g ++ r))%nat) by (cbn [length]; rewrite app_length; lia).
  do 12 (uf_step O; too_short).
  set (b := (0 :: group_data g ++ r)%list) in *.
  destruct G as (GA & GB & GC & GD & GE & GF & GP).
  assert (B0 : byte_at 0 b = 0) by reflexivity.
  assert (B1 : byte_at 1 b = g_state g + 128 * g_pref g) by reflexivity.
  assert (U2 : ub 2 4 b = 256 * g_supported g + g_number g / 256).
  { change (ub 2 4 b) with ((0 * 256 + g_supported g) * 256 + (g_number g / 256) mod 256).
    rewrite (Z.mod_small (g_number g / 256)); [lia|].
    split; [apply Z.div_pos; lia|apply Z.div_lt_upper_bound; lia]. }
  assert (U5 : ub 5 6 b = 0) by reflexivity.
  assert (U7 : ub 7 8 b = 0) by reflexivity.
  rewrite !sb_small by (rewrite ?U5, ?U7; cbn; lia). rewrite U2, U5, U7.
  unfold bf. rewrite B0, B1. clear B0 B1.
  cbn [unpack_fields]. unfold r_list_n, to_end. cbv beta.
  change (int_attr "target_port_count" (_ :: _)) with 0. cbn [Z.to_nat list_n bind app].
  change (int_attr "target_port_count" (_ :: _)) with 0. reflexivity.
Qed.

Lemma rtpg_extended_spec : forall alloc t g groups rest,
  Forall group_ok (g :: groups) -> 0 <= t < 256 ->
  zlen (flat_map group_data (g :: groups)) + 4 < 2 ^ 31 -> bytes_ok rest ->
  match yields (rtpg 1 alloc) (Some (extended_data t (g :: groups) ++ rest)%list) with
  | Ok v => exists n more, v = PObj "TargetPortGroupExtendedResponse"
              [("data_length", PInt n); ("format_type", PInt 1);
               ("descriptor_list", PList (group_object (misread g) :: more))]
  | Err _ => True
  end.
Proof.
  intros alloc t g groups rest F T L R. inversion F as [|? ? G FG]; subst.
  unfold yields, rtpg. cbn [Z.eqb Pos.eqb orb assert_ bind o_finish o_attrs].
  change (attr "parameter_data_format" _) with 1. cbn [Z.eqb Pos.eqb parsed].
  unfold extended_data. cbv zeta.
  set (d := flat_map group_data (g :: groups)) in *.
  assert (DO : bytes_ok d).
  { subst d. clear - F. induction F as [|x l X F IH]; cbn [flat_map]; [constructor|].
    apply bytes_ok_app. split; [apply group_data_ok; exact X|exact IH]. }
  set (b := ((be_bytes 4 (4 + zlen d) ++ [16; t; 0; 0] ++ d) ++ rest)%list).
  assert (O : bytes_ok b).
  { subst b. rewrite !bytes_ok_app. split; [|exact R]. split; [apply be_bytes_ok|]. split; [|exact DO].
    repeat constructor; unfold byte_ok; lia. }
  assert (LB : length b = (8 + length d + length rest)%nat)
    by (subst b; rewrite !app_length, be_bytes_length; cbn [length]; lia).
  unfold unpack, rtpg_extended. cbn [c_fields c_name].
  do 2 (uf_step O; too_short).
  assert (U : ub 0 4 b = 4 + zlen d).
  { subst b. rewrite <- app_assoc. unfold ub. rewrite slice0 by apply be_bytes_length.
    apply be_val_be_bytes_small. change (256 ^ Z.of_nat 4) with (2 ^ 32). unfold zlen in *. lia. }
  rewrite sb_small by (rewrite U; change (8 * Z.of_nat (4 - 0) - 1) with 31; lia). rewrite U.
  assert (B4 : byte_at 4 b = 16).
  { subst b. rewrite <- !app_assoc. unfold byte_at. rewrite app_nth2 by (rewrite be_bytes_length; lia).
    rewrite be_bytes_length. reflexivity. }
  unfold bf. rewrite B4. change ((16 / 2 ^ Z.of_nat 4) mod 2 ^ Z.of_nat 3) with 1.
  cbn [unpack_fields]. unfold r_list, plus. cbv beta.
  change (int_attr "data_length" (_ :: _)) with (4 + zlen d).
  assert (SL : exists r, slice 7 (Z.to_nat (7 + (4 + zlen d))) b = (0 :: group_data g ++ r)%list /\ bytes_ok r).
  { exists (flat_map group_data groups ++ firstn 3 rest)%list. split.
    - subst b. unfold slice. rewrite <- !app_assoc. cbn [app].
      replace (be_bytes 4 (4 + zlen d) ++ 16 :: t :: 0 :: 0 :: d ++ rest)%list
        with ((be_bytes 4 (4 + zlen d) ++ [16; t; 0]) ++ 0 :: d ++ rest)%list by (rewrite <- app_assoc; reflexivity).
      rewrite skipn_exactly by (rewrite app_length, be_bytes_length; reflexivity).
      replace (Z.to_nat (7 + (4 + zlen d)) - 7)%nat with (S (length d + 3)) by (unfold zlen; lia).
      cbn [firstn]. f_equal. rewrite firstn_app_2. subst d. cbn [flat_map]. rewrite <- app_assoc. reflexivity.
    - apply bytes_ok_app. split; [|apply bytes_ok_firstn; exact R].
      subst d. cbn [flat_map] in DO. apply bytes_ok_app in DO. apply DO. }
  destruct SL as (r & -> & RO). unfold read_list. cbn [length list_all].
  rewrite misread_element by assumption. cbn [bind].
  destruct (list_all _ _ _) as [more|e]; cbn [bind app]; [|exact I].
  eexists. eexists. reflexivity.
Qed.

(** The response with the extended header is read as a length-only response would be whose descriptors are
    the last byte of the header, all the descriptors, and at most three bytes from behind them. *)
Lemma length_only_reads : forall alloc s, bytes_ok s -> zlen s < 2 ^ 31 ->
  yields (rtpg 0 alloc) (Some (be_bytes 4 (zlen s) ++ s)%list) =
  do l <- read_list rtpg_element s;
  Ok (PObj "TargetPortGroupLengthOnlyResponse" [("data_length", PInt (zlen s)); ("descriptor_list", PList l)]).
Proof.
  intros alloc d DO L. unfold yields, rtpg. cbn [Z.eqb orb assert_ bind o_finish o_attrs].
  change (attr "parameter_data_format" _) with 0. cbn [Z.eqb parsed].
  set (b := (be_bytes 4 (zlen d) ++ d)%list).
  assert (O : bytes_ok b) by (subst b; repeat (apply bytes_ok_app; split; auto using be_bytes_ok)).
  assert (LB : length b = (4 + length d)%nat) by (subst b; rewrite !app_length, be_bytes_length; lia).
  unfold unpack, rtpg_length_only. cbn [c_fields c_name].
  uf_step O. too_short.
  assert (U : ub 0 4 b = zlen d).
  { subst b. unfold ub. rewrite slice0 by apply be_bytes_length.
    apply be_val_be_bytes_small. change (256 ^ Z.of_nat 4) with (2 ^ 32). unfold zlen in *. lia. }
  rewrite sb_small by (rewrite U; exact L). rewrite U.
  cbn [unpack_fields]. unfold r_list, plus. cbv beta. change (int_attr "data_length" _) with (zlen d).
  assert (SL : slice 4 (Z.to_nat (4 + zlen d)) b = d).
  { subst b. unfold slice. rewrite skipn_exactly by apply be_bytes_length.
    apply firstn_all2. unfold zlen. lia. }
  rewrite SL. destruct (read_list rtpg_element d); reflexivity.
Qed.
Lemma extended_reads : forall alloc t groups rest, Forall group_ok groups -> 0 <= t < 256 ->
  zlen (flat_map group_data groups) + 4 < 2 ^ 31 -> bytes_ok rest ->
  yields (rtpg 1 alloc) (Some (extended_data t groups ++ rest)%list) =
  do l <- read_list rtpg_element (0 :: flat_map group_data groups ++ firstn 3 rest)%list;
  Ok (PObj "TargetPortGroupExtendedResponse"
        [("data_length", PInt (4 + zlen (flat_map group_data groups))); ("format_type", PInt 1); ("descriptor_list", PList l)]).
Proof.
  intros alloc t groups rest F T L R.
  unfold yields, rtpg. cbn [Z.eqb Pos.eqb orb assert_ bind o_finish o_attrs].
  change (attr "parameter_data_format" _) with 1. cbn [Z.eqb Pos.eqb parsed].
  unfold extended_data. cbv zeta.
  set (d := flat_map group_data groups) in *.
  assert (DO : bytes_ok d).
  { subst d. clear - F. induction F as [|x l X F IH]; cbn [flat_map]; [constructor|].
    apply bytes_ok_app. split; [apply group_data_ok; exact X|exact IH]. }
  set (b := ((be_bytes 4 (4 + zlen d) ++ [16; t; 0; 0] ++ d) ++ rest)%list).
  assert (O : bytes_ok b).
  { subst b. rewrite !bytes_ok_app. split; [|exact R]. split; [apply be_bytes_ok|]. split; [|exact DO].
    repeat constructor; unfold byte_ok; lia. }
  assert (LB : length b = (8 + length d + length rest)%nat)
    by (subst b; rewrite !app_length, be_bytes_length; cbn [length]; lia).
  unfold unpack, rtpg_extended. cbn [c_fields c_name].
  do 2 (uf_step O; too_short).
  assert (U : ub 0 4 b = 4 + zlen d).
  { subst b. rewrite <- app_assoc. unfold ub. rewrite slice0 by apply be_bytes_length.
    apply be_val_be_bytes_small. change (256 ^ Z.of_nat 4) with (2 ^ 32). unfold zlen in *. lia. }
  rewrite sb_small by (rewrite U; change (8 * Z.of_nat (4 - 0) - 1) with 31; lia). rewrite U.
  assert (B4 : byte_at 4 b = 16).
  { subst b. rewrite <- !app_assoc. unfold byte_at. rewrite app_nth2 by (rewrite be_bytes_length; lia).
    rewrite be_bytes_length. reflexivity. }
  unfold bf. rewrite B4. change ((16 / 2 ^ Z.of_nat 4) mod 2 ^ Z.of_nat 3) with 1.
  cbn [unpack_fields]. unfold r_list, plus. cbv beta.
  change (int_attr "data_length" (_ :: _)) with (4 + zlen d).
  assert (SL : slice 7 (Z.to_nat (7 + (4 + zlen d))) b = (0 :: d ++ firstn 3 rest)%list).
  { subst b. unfold slice. rewrite <- !app_assoc. cbn [app].
    replace (be_bytes 4 (4 + zlen d) ++ 16 :: t :: 0 :: 0 :: d ++ rest)%list
      with ((be_bytes 4 (4 + zlen d) ++ [16; t; 0]) ++ 0 :: d ++ rest)%list by (rewrite <- app_assoc; reflexivity).
    rewrite skipn_exactly by (rewrite app_length, be_bytes_length; reflexivity).
    replace (Z.to_nat (7 + (4 + zlen d)) - 7)%nat with (S (length d + 3)) by (unfold zlen; lia).
    cbn [firstn]. f_equal. rewrite firstn_app_2. reflexivity. }
  rewrite SL. destruct (read_list rtpg_element _); reflexivity.
Qed.
Lemma rtpg_extended_shift : forall alloc t groups rest, Forall group_ok groups -> 0 <= t < 256 ->
  zlen (flat_map group_data groups) + 4 < 2 ^ 31 -> bytes_ok rest ->
  let shifted := (0 :: flat_map group_data groups ++ firstn 3 rest)%list in
  descriptors_in (yields (rtpg 1 alloc) (Some (extended_data t groups ++ rest)%list)) =
  descriptors_in (yields (rtpg 0 alloc) (Some (be_bytes 4 (zlen shifted) ++ shifted)%list)).
Proof.
  intros alloc t groups rest F T L R shifted.
  assert (DO : bytes_ok (flat_map group_data groups)).
  { clear - F. induction F as [|x l X F IH]; cbn [flat_map]; [constructor|].
    apply bytes_ok_app. split; [apply group_data_ok; exact X|exact IH]. }
  rewrite extended_reads, length_only_reads; try assumption.
  - fold shifted. destruct (read_list rtpg_element shifted); reflexivity.
  - subst shifted. constructor; [unfold byte_ok; lia|]. apply bytes_ok_app. split; [exact DO|apply bytes_ok_firstn; exact R].
  - subst shifted. unfold zlen in *. cbn [length]. rewrite app_length. pose proof (firstn_le_length 3 rest). pose proof (firstn_length 3 rest). lia.
Qed.
(** A group with 128 ports or more. *)
Lemma unported_element : forall g r, group_ok g -> g_status g < 128 -> 128 <= zlen (g_ports g) -> bytes_ok r ->
  rtpg_element (group_data g ++ r)%list = Ok (unported g, 8%nat).
Proof.
  intros g rest G S N R. unfold rtpg_element, unpack, target_port_group_descriptor. cbn [c_fields c_name].
  pose proof (group_data_length g) as GL.
  assert (O : bytes_ok (group_data g ++ rest)%list) by (apply bytes_ok_app; split; [apply group_data_ok; exact G|exact R]).
  assert (L : (8 <= length (group_data g ++ rest))%nat) by (rewrite app_length; lia).
  do 12 (uf_step O; too_short).
  set (b := (group_data g ++ rest)%list) in *.
  destruct G as (GA & GB & GC & GD & GE & GF & GP).
  assert (B0 : byte_at 0 b = g_state g + 128 * g_pref g) by reflexivity.
  assert (B1 : byte_at 1 b = g_supported g) by reflexivity.
  assert (U2 : ub 2 4 b = g_number g).
  { subst b. unfold group_data. rewrite <- !app_assoc.
    rewrite (ub_in 2 4 [_; _] (be_bytes 2 (g_number g))) by (try reflexivity; apply be_bytes_length).
    apply be_val_be_bytes_small. exact GD. }
  assert (U5 : ub 5 6 b = g_status g) by reflexivity.
  assert (U7 : sb 7 8 b = zlen (g_ports g) - 256).
  { assert (X : ub 7 8 b = zlen (g_ports g)) by reflexivity. unfold sb. rewrite X.
    change (8 * Z.of_nat (8 - 7)) with 8. change (2 ^ (8 - 1)) with 128. destruct (Z.leb_spec 128 (zlen (g_ports g))); [reflexivity|lia]. }
  rewrite (sb_small 5 6) by (rewrite U5; cbn; lia). rewrite U2, U5, U7.
  unfold bf. rewrite B0, B1. clear B0 B1.
  cbn [unpack_fields]. unfold r_list_n, to_end. cbv beta.
  change (int_attr "target_port_count" (_ :: _)) with (zlen (g_ports g) - 256).
  replace (Z.to_nat (zlen (g_ports g) - 256)) with 0%nat by lia. cbn [list_n bind app].
  change (int_attr "target_port_count" _) with (zlen (g_ports g) - 256).
  replace (Z.to_nat (zlen (g_ports g) - 256)) with 0%nat by lia.
  unfold unported, bit, zlen. cbn [group_object g_state g_pref g_supported g_number g_status firstn app]. change (2 ^ Z.of_nat 0) with 1. change (2 ^ Z.of_nat 1) with 2.
  change (2 ^ Z.of_nat 4) with 16. change (2 ^ Z.of_nat 7) with 128.
  replace (((g_state g + 128 * g_pref g) / 1) mod 16) with (g_state g)
    by (Z.to_euclidean_division_equations; lia).
  replace (((g_state g + 128 * g_pref g) / 128) mod 2) with (g_pref g)
    by (Z.to_euclidean_division_equations; lia).
  reflexivity.
Qed.

Lemma list_all_fuel : forall one n m buf, (length buf <= n)%nat -> (length buf <= m)%nat -> list_all one n buf = list_all one m buf.
Proof.
  intros one. induction n as [|n IH]; intros m buf N M.
  - destruct buf; [|cbn in N; lia]. destruct m; reflexivity.
  - destruct buf as [|x buf]; [destruct m; reflexivity|]. destruct m as [|m]; [cbn in M; lia|]. cbn [list_all].
    destruct (one (x :: buf)) as [[v k]|e]; [|reflexivity]. cbn [bind]. destruct k as [|k]; [reflexivity|].
    cbn [skipn length] in *. rewrite (IH m); [reflexivity| |]; rewrite skipn_length; lia.
Qed.
Lemma read_list_app : forall {A} (enc : A -> bytes) obj one l tail, Forall (decodes enc obj one) l -> bytes_ok tail ->
  read_list one (flat_map enc l ++ tail)%list = do more <- read_list one tail; Ok (map obj l ++ more)%list.
Proof.
  intros A enc obj one l tail F OT. induction F as [|x l (N & O & D) F IH]; cbn [flat_map map app].
  - destruct (read_list one tail); reflexivity.
  - rewrite <- app_assoc. specialize (D (flat_map enc l ++ tail)%list).
    assert (O2 : bytes_ok (flat_map enc l ++ tail)%list) by (apply bytes_ok_app; split; [eapply enc_ok; exact F|exact OT]).
    specialize (D O2). unfold read_list at 1. rewrite app_length. destruct (enc x) as [|b r] eqn:X; [contradiction|]. cbn [app length Nat.add] in *.
    cbn [list_all]. rewrite D. cbn [bind skipn]. rewrite skipn_app, skipn_all, Nat.sub_diag. cbn [skipn app].
    rewrite (list_all_fuel one _ (length (flat_map enc l ++ tail)%list)) by lia. fold (read_list one (flat_map enc l ++ tail)%list). rewrite IH.
    destruct (read_list one tail); reflexivity.
Qed.
Lemma many_ports_read : forall alloc before g after,
  Forall (fun g => group_ok g /\ g_status g < 128 /\ zlen (g_ports g) < 128) before ->
  group_ok g -> g_status g < 128 -> 128 <= zlen (g_ports g) -> Forall group_ok after ->
  zlen (flat_map group_data (before ++ g :: after)) < 2 ^ 31 ->
  let ports := (flat_map port_data (g_ports g) ++ flat_map group_data after)%list in
  descriptors_in (yields (rtpg 0 alloc) (Some (length_only_data (before ++ g :: after)))) =
  match descriptors_in (yields (rtpg 0 alloc) (Some (be_bytes 4 (zlen ports) ++ ports)%list)) with
  | Ok more => Ok (map group_object before ++ unported g :: more)%list
  | Err e => Err e
  end.
Proof.
  intros alloc before g after FB G S N FA L ports.
  assert (D : Forall (decodes group_data group_object rtpg_element) before).
  { eapply Forall_impl; [|exact FB]. intros x (A & B & C). apply group_decodes; assumption. }
  assert (OA : bytes_ok (flat_map group_data after)).
  { clear - FA. induction FA as [|x l X F IH]; cbn [flat_map]; [constructor|].
    apply bytes_ok_app. split; [apply group_data_ok; exact X|exact IH]. }
  assert (E : flat_map group_data (before ++ g :: after) = (flat_map group_data before ++ group_data g ++ flat_map group_data after)%list).
  { rewrite flat_map_app. reflexivity. }
  assert (OG : bytes_ok (group_data g ++ flat_map group_data after)%list) by (apply bytes_ok_app; split; [apply group_data_ok; exact G|exact OA]).
  assert (OP : bytes_ok ports).
  { subst ports. apply bytes_ok_app. split; [|exact OA]. unfold group_data in OG. rewrite !bytes_ok_app in OG. apply OG. }
  assert (SK : skipn 8 (group_data g ++ flat_map group_data after) = ports) by reflexivity.
  assert (LP : zlen ports < 2 ^ 31).
  { rewrite <- SK. rewrite E in L. unfold zlen in *. rewrite skipn_length. rewrite app_length in L. lia. }
  unfold length_only_data. cbv zeta. rewrite length_only_reads.
  2: { rewrite E. apply bytes_ok_app. split; [eapply enc_ok; exact D|exact OG]. }
  2: exact L.
  rewrite length_only_reads by assumption. rewrite E, (read_list_app group_data group_object) by assumption.
  unfold read_list at 1. pose proof (unported_element g (flat_map group_data after) G S N OA) as U.
  assert (X : exists x buf, (group_data g ++ flat_map group_data after)%list = x :: buf) by (eexists; eexists; reflexivity).
  destruct X as (x & buf & X). clear E. rewrite X in *.
  cbn [length list_all]. rewrite U. cbn [bind]. rewrite SK.
  rewrite (list_all_fuel _ _ (length ports)); [| |lia].
  2: { rewrite <- SK, skipn_length. cbn [length]. lia. }
  fold (read_list rtpg_element ports). destruct (read_list rtpg_element ports); reflexivity.
Qed.
