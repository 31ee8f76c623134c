(** Facts about SpecGroups.v. *)
From Coq Require Import String ZArith List Bool Lia.
From Verif Require Import Base BaseFacts Gen SpecGen Executer OsCommon Instruct InstructFacts Command CdbPrimary CdbPrimaryFacts CdbPropFacts CdbLemmas ResponseLemmas CdbResponseFacts
  RtpgFacts DesignatorFacts SpecDevice SpecCdb CdbAllFacts SpecSg SpecDrivers SpecExecute SpecSense SpecPortable SpecReserve ReserveFacts SpecAdaptive AdaptiveFacts
  SpecAlua SpecGroups.
Import ListNotations.
Local Open Scope string_scope.
Local Open Scope list_scope.
Local Open Scope Z_scope.

(** * Groups that are cut *)
Lemma port_short : forall b, bytes_ok b -> (length b < 4)%nat -> elem_obj target_port_descriptor 4 b = Err EInstruct.
Proof.
  intros b O L. unfold elem_obj, unpack, target_port_descriptor. cbn [c_fields c_name]. uf_step O. too_short. reflexivity.
Qed.
Lemma ports_short : forall l k, Forall (fun p => 0 <= p < 65536) l -> (k < 4 * length l)%nat ->
  list_n (elem_obj target_port_descriptor 4) (length l) (firstn k (flat_map port_data l)) = Err EInstruct.
Proof.
  induction l as [|p l IH]; intros k F L; [cbn in L; lia|]. inversion F as [|? ? P FL]; subst. cbn [length list_n flat_map] in *.
  assert (LP : length (port_data p) = 4%nat) by reflexivity.
  assert (OL : bytes_ok (flat_map port_data l)).
  { apply (enc_ok port_data port_object (elem_obj target_port_descriptor 4)). eapply Forall_impl; [|exact FL]. intros x. apply port_decodes. }
  destruct (Nat.le_gt_cases 4 k) as [K|K].
  - rewrite firstn_app, LP, firstn_all2 by lia. destruct (port_decodes p P) as (_ & _ & D). rewrite D by (apply bytes_ok_firstn; exact OL).
    cbn [bind]. rewrite skipn_app, skipn_all, Nat.sub_diag. cbn [skipn app]. rewrite IH by (auto; lia). reflexivity.
  - rewrite port_short; [reflexivity| |rewrite firstn_length; lia]. apply bytes_ok_firstn. apply bytes_ok_app. split; [apply port_data_ok|exact OL].
Qed.

Lemma group_cut : forall g k, group_ok g -> zlen (g_ports g) < 128 -> (k < length (group_data g))%nat ->
  rtpg_element (firstn k (group_data g)) = Err EInstruct.
Proof.
  intros g k G N K. pose proof (group_data_length g) as GL. pose proof (group_data_ok g G) as GO.
  pose proof (bytes_ok_firstn k _ GO) as O. assert (L : length (firstn k (group_data g)) = k) by (rewrite firstn_length; lia).
  unfold rtpg_element, unpack, target_port_group_descriptor. cbn [c_fields c_name].
  destruct (Nat.le_gt_cases 8 k) as [K8|K8].
  - do 12 (uf_step O; too_short). cbn [unpack_fields]. unfold r_list_n, to_end. cbv beta.
    assert (U7 : sb 7 8 (firstn k (group_data g)) = zlen (g_ports g)).
    { assert (X : ub 7 8 (firstn k (group_data g)) = zlen (g_ports g)).
      { do 8 (destruct k as [|k]; [lia|]). reflexivity. }
      rewrite sb_small; [exact X|]. rewrite X. exact N. }
    rewrite U7. change (int_attr "target_port_count" (_ :: _)) with (zlen (g_ports g)).
    assert (SL : slice 8 (Z.to_nat (zlen (firstn k (group_data g)))) (firstn k (group_data g)) = firstn (k - 8) (flat_map port_data (g_ports g))).
    { unfold slice, zlen. rewrite Nat2Z.id, L. do 8 (destruct k as [|k]; [lia|]). cbn [Nat.sub]. rewrite Nat.sub_0_r.
      change (skipn 8 (firstn _ (group_data g))) with (firstn k (flat_map port_data (g_ports g))). rewrite firstn_firstn, Nat.min_id. reflexivity. }
    unfold zlen in *. rewrite SL, Nat2Z.id, ports_short; [reflexivity|apply G|lia].
  - clear -O L K8. set (b := firstn k (group_data g)) in *. clearbody b.
    repeat (uf_step O; match goal with |- context [(?n <=? length b)%nat] => destruct (Nat.leb_spec n (length b)); [|reflexivity] end); exfalso; lia.
Qed.

(** * The list of them *)

(** The groups that are there completely in the given number of bytes, and how many bytes of another one. *)
Fixpoint whole_groups (room : Z) (groups : list port_group) : list port_group * Z :=
  match groups with
  | [] => ([], 0)
  | g :: rest =>
      let size := 8 + 4 * zlen (g_ports g) in
      if size <=? room then let (l, more) := whole_groups (room - size) rest in (g :: l, more) else ([], room)
  end.
(** What is seen of them: an exception if one of the groups is cut; otherwise the complete ones, with the length of all. *)
Definition groups_seen (alloc : Z) (groups : list port_group) : result pyval :=
  let (l, more) := whole_groups (alloc - 4) groups in
  if more =? 0
  then Ok (groups_object "TargetPortGroupLengthOnlyResponse" [("data_length", PInt (zlen (flat_map group_data groups)))] l)
  else Err EInstruct.

Lemma size_of : forall g, zlen (group_data g) = 8 + 4 * zlen (g_ports g).
Proof. intro g. unfold zlen. rewrite group_data_length. lia. Qed.
Lemma groups_cut : forall groups room, Forall (fun g => group_ok g /\ g_status g < 128 /\ zlen (g_ports g) < 128) groups -> 0 <= room ->
  read_list rtpg_element (firstn (Z.to_nat room) (flat_map group_data groups)) =
  (let (l, more) := whole_groups room groups in if more =? 0 then Ok (map group_object l) else Err EInstruct).
Proof.
  induction groups as [|g groups IH]; intros room F R; [rewrite firstn_nil; reflexivity|]. inversion F as [|? ? (G & S & N) FG]; subst.
  cbn [flat_map whole_groups]. cbv zeta. rewrite <- size_of. pose proof (group_data_length g) as GL.
  assert (OG : bytes_ok (flat_map group_data groups)).
  { apply (enc_ok group_data group_object rtpg_element). eapply Forall_impl; [|exact FG]. intros x (A & B & C). apply group_decodes; assumption. }
  destruct (Z.leb_spec (zlen (group_data g)) room) as [L|L].
  - unfold zlen in L. rewrite firstn_app, firstn_all2 by lia.
    replace (Z.to_nat room - length (group_data g))%nat with (Z.to_nat (room - zlen (group_data g))) by (unfold zlen; lia).
    pose proof (read_list_app group_data group_object rtpg_element [g] (firstn (Z.to_nat (room - zlen (group_data g))) (flat_map group_data groups))) as A.
    cbn [flat_map map] in A. rewrite app_nil_r in A. rewrite A; [|constructor; [apply group_decodes; assumption|constructor]|apply bytes_ok_firstn; exact OG].
    rewrite IH by (auto; unfold zlen; lia). destruct (whole_groups (room - zlen (group_data g)) groups) as [l more].
    destruct (more =? 0); reflexivity.
  - unfold zlen in L. rewrite firstn_app. replace (Z.to_nat room - length (group_data g))%nat with 0%nat by lia. cbn [firstn]. rewrite app_nil_r.
    destruct (Z.eqb_spec room 0) as [->|Z0]; [reflexivity|].
    pose proof (list_all_fails group_data group_object rtpg_element [] (firstn (Z.to_nat room) (group_data g)) (length (firstn (Z.to_nat room) (group_data g))) EInstruct) as X.
    cbn [flat_map app] in X. unfold read_list. apply X; [constructor|apply bytes_ok_firstn, group_data_ok; exact G| |apply group_cut; auto; lia|lia].
    intro E. apply (f_equal (@length Z)) in E. rewrite firstn_length in E. cbn in E. lia.
Qed.

Lemma length_only_prefix : forall alloc data n, bytes_ok data -> 0 <= n < 2 ^ 31 ->
  yields (rtpg 0 alloc) (Some (be_bytes 4 n ++ data)) =
  do l <- read_list rtpg_element (firstn (Z.to_nat n) data);
  Ok (PObj "TargetPortGroupLengthOnlyResponse" [("data_length", PInt n); ("descriptor_list", PList l)]).
Proof.
  intros alloc d n DO L. unfold yields, rtpg. cbn [Z.eqb orb assert_ bind o_finish o_attrs].
  change (attr "parameter_data_format" _) with 0. cbn [Z.eqb parsed].
  set (b := (be_bytes 4 n ++ d)%list).
  assert (O : bytes_ok b) by (subst b; repeat (apply bytes_ok_app; split; auto using be_bytes_ok)).
  assert (LB : length b = (4 + length d)%nat) by (subst b; rewrite !app_length, be_bytes_length; lia).
  unfold unpack, rtpg_length_only. cbn [c_fields c_name].
  uf_step O. too_short.
  assert (U : ub 0 4 b = n).
  { subst b. unfold ub. rewrite slice0 by apply be_bytes_length.
    apply be_val_be_bytes_small. change (256 ^ Z.of_nat 4) with (2 ^ 32). lia. }
  rewrite sb_small by (rewrite U; apply L). rewrite U.
  cbn [unpack_fields]. unfold r_list, plus. cbv beta. change (int_attr "data_length" _) with n.
  assert (SL : slice 4 (Z.to_nat (4 + n)) b = firstn (Z.to_nat n) d).
  { subst b. unfold slice. rewrite skipn_exactly by apply be_bytes_length. f_equal. lia. }
  rewrite SL. destruct (read_list rtpg_element _); reflexivity.
Qed.

Lemma whole_all : forall groups room, zlen (flat_map group_data groups) <= room -> whole_groups room groups = (groups, 0).
Proof.
  induction groups as [|g groups IH]; intros room L; [reflexivity|]. cbn [flat_map whole_groups] in *. cbv zeta. rewrite <- size_of.
  unfold zlen in *. rewrite app_length in L. destruct (Z.leb_spec (Z.of_nat (length (group_data g))) room); [|lia].
  rewrite IH by lia. reflexivity.
Qed.

Lemma groups_seen_spec : forall padded alloc cdb groups, readable_groups groups -> 4 <= alloc < 2 ^ 32 ->
  seen padded (Rtpg 0 alloc) (ReadCmd cdb alloc) (good (firstn (Z.to_nat alloc) (length_only_data groups))) = groups_seen alloc groups.
Proof.
  intros padded alloc cdb groups [F L] A. rewrite seen_nice.
  destruct (got_data padded cdb alloc (length_only_data groups)) as (m & E & M); [lia| |].
  { unfold length_only_data. cbv zeta. unfold zlen. rewrite app_length, be_bytes_length. lia. }
  rewrite E. clear E. cbn [constructed].
  assert (OG : bytes_ok (flat_map group_data groups)).
  { apply (enc_ok group_data group_object rtpg_element). eapply Forall_impl; [|exact F]. intros x (B & C & D). apply group_decodes; assumption. }
  set (d := flat_map group_data groups) in *.
  assert (X : firstn (Z.to_nat alloc) (length_only_data groups ++ zeros m) = be_bytes 4 (zlen d) ++ firstn (Z.to_nat (alloc - 4)) (d ++ zeros m)).
  { unfold length_only_data. fold d. cbv zeta. rewrite <- app_assoc, firstn_app, be_bytes_length, firstn_all2 by (rewrite be_bytes_length; lia).
    f_equal. f_equal. lia. }
  rewrite X, length_only_prefix; [|apply bytes_ok_firstn, bytes_ok_app; split; [exact OG|apply zeros_ok]|unfold zlen in *; lia].
  rewrite firstn_firstn, Nat.min_comm, <- firstn_firstn.
  replace (firstn (Z.to_nat (zlen d)) (d ++ zeros m)) with d.
  2:{ unfold zlen. rewrite Nat2Z.id, firstn_app, firstn_all, Nat.sub_diag. cbn [firstn]. rewrite app_nil_r. reflexivity. }
  subst d. rewrite groups_cut by (auto; lia). unfold groups_seen. destruct (whole_groups (alloc - 4) groups) as [l more].
  destruct (more =? 0); reflexivity.
Qed.

Lemma issued_rtpg : forall alloc, 0 <= alloc < 2 ^ 32 ->
  exists cdb, issued (Rtpg 0 alloc) = Ok (ReadCmd cdb alloc) /\ interpret cdb = Some (OpReportTargetPortGroups 0 alloc).
Proof.
  intros alloc A. pose proof (rtpg_spec 0 alloc) as S. unfold issued. cbn [constructed].
  destruct (do o <- rtpg 0 alloc; request o) as [k|e] eqn:J.
  - destruct (asks_ok _ _ _ _ _ S eq_refl) as (_ & cdb & -> & X). eauto.
  - exfalso. apply S. lia.
Qed.

Lemma seen_all : forall alloc groups, 4 + zlen (flat_map group_data groups) <= alloc ->
  groups_seen alloc groups = Ok (groups_object "TargetPortGroupLengthOnlyResponse" [("data_length", PInt (zlen (flat_map group_data groups)))] groups).
Proof. intros alloc groups L. unfold groups_seen. rewrite whole_all by lia. reflexivity. Qed.
Lemma seen_none : forall groups,
  groups_seen 4 groups = Ok (groups_object "TargetPortGroupLengthOnlyResponse" [("data_length", PInt (zlen (flat_map group_data groups)))] []).
Proof.
  intros [|g groups]; [reflexivity|]. unfold groups_seen. cbn [whole_groups]. cbv zeta.
  destruct (Z.leb_spec (8 + 4 * zlen (g_ports g)) (4 - 4)) as [L|L]; [unfold zlen in L; lia|]. reflexivity.
Qed.

(** * Programs *)
Section Groups.
Context (T : Type) (tgt : target T) (groups : T -> list port_group) (next : T -> T) (D : reports_groups tgt groups next).

Lemma one_does : forall padded alloc t p t' r, 4 <= alloc < 2 ^ 32 ->
  does tgt padded (next t) (p (groups_seen alloc (groups t))) t' r -> does tgt padded t (Do (Rtpg 0 alloc) p) t' r.
Proof.
  intros padded alloc t p t' r A X. destruct (issued_rtpg alloc ltac:(lia)) as (cdb & J & C).
  eapply does_seen; [exact Logic.I|exact J|cbn [moderate]; lia|exact (rg_answer _ _ _ D t cdb [] alloc C)|apply ordinary_good| |exact X].
  apply groups_seen_spec; [apply (rg_groups _ _ _ D)|lia].
Qed.
Lemma finish_does : forall padded t r, does tgt padded t (finish r) t r.
Proof. intros padded t [v|e]; constructor. Qed.
Lemma fetch_does : forall padded t,
  does tgt padded t fetch_groups (next (next t)) (groups_seen (4 + zlen (flat_map group_data (groups t))) (groups (next t))).
Proof.
  intros padded t. unfold fetch_groups. apply one_does; [lia|]. rewrite seen_none. cbn [groups_object attribute_of lookup String.eqb app].
  destruct (rg_groups _ _ _ D t) as [_ L]. apply one_does; [unfold zlen in *; lia|]. apply finish_does.
Qed.

Lemma one_run : forall (sys : system T) alloc t s, one_of_four sys -> idle sys s t -> 4 <= alloc < 2 ^ 32 ->
  exists s', sync_wait_ends (coroutine (os_of sys tgt) (Do (Rtpg 0 alloc) finish)) s s' (shown (groups_seen alloc (groups t))) /\ idle sys s' (next t).
Proof.
  intros sys alloc t s F Hi A.
  exact (adaptive _ _ _ _ _ _ _ _ F (one_does (pads sys) alloc t finish (next t) _ A (finish_does _ _ _)) Hi).
Qed.
Lemma fetch_run : forall (sys : system T) t s, one_of_four sys -> idle sys s t ->
  exists s', sync_wait_ends (coroutine (os_of sys tgt) fetch_groups) s s'
      (shown (groups_seen (4 + zlen (flat_map group_data (groups t))) (groups (next t)))) /\ idle sys s' (next (next t)).
Proof. intros sys t s F Hi. exact (adaptive _ _ _ _ _ _ _ _ F (fetch_does (pads sys) t) Hi). Qed.
End Groups.

(** * Where the list is cut *)
Lemma bytes_cons : forall g l, bytes_of (g :: l) = 8 + 4 * zlen (g_ports g) + bytes_of l.
Proof. intros g l. rewrite <- size_of. unfold bytes_of, zlen. cbn [flat_map]. rewrite app_length. lia. Qed.
Lemma whole_boundary : forall l rest, whole_groups (bytes_of l) (l ++ rest) = (l, 0).
Proof.
  induction l as [|g l IH]; intros rest.
  - cbn [app]. change (bytes_of []) with 0. destruct rest as [|g rest]; [reflexivity|]. cbn [whole_groups]. cbv zeta.
    destruct (Z.leb_spec (8 + 4 * zlen (g_ports g)) 0) as [L|L]; [unfold zlen in L; lia|reflexivity].
  - cbn [app whole_groups]. cbv zeta. rewrite bytes_cons.
    assert (0 <= bytes_of l) by (unfold bytes_of, zlen; lia).
    destruct (Z.leb_spec (8 + 4 * zlen (g_ports g)) (8 + 4 * zlen (g_ports g) + bytes_of l)) as [L|L]; [|lia].
    replace (_ + bytes_of l - _) with (bytes_of l) by lia. rewrite IH. reflexivity.
Qed.
Lemma whole_cut : forall groups room l more, 0 <= room -> whole_groups room groups = (l, more) -> room < bytes_of groups ->
  exists rest, groups = l ++ rest /\ more = room - bytes_of l.
Proof.
  induction groups as [|g groups IH]; intros room l more Z0 W R; cbn [whole_groups] in W.
  - change (bytes_of []) with 0 in R. lia.
  - cbv zeta in W. rewrite bytes_cons in R. destruct (Z.leb_spec (8 + 4 * zlen (g_ports g)) room) as [L|L].
    + destruct (whole_groups (room - (8 + 4 * zlen (g_ports g))) groups) as [k m] eqn:K. injection W as <- <-.
      destruct (IH (room - (8 + 4 * zlen (g_ports g))) k m ltac:(lia) K ltac:(lia)) as (rest & -> & ->). exists rest. split; [reflexivity|]. rewrite bytes_cons. lia.
    + injection W as <- <-. exists (g :: groups). split; [reflexivity|]. change (bytes_of []) with 0. lia.
Qed.

Lemma seen_boundary : forall l rest, groups_seen (4 + bytes_of l) (l ++ rest) = Ok (some_groups (bytes_of (l ++ rest)) l).
Proof. intros l rest. unfold groups_seen. replace (4 + bytes_of l - 4) with (bytes_of l) by lia. rewrite whole_boundary. reflexivity. Qed.
Lemma seen_cut : forall alloc groups, 4 <= alloc < 4 + bytes_of groups ->
  (forall l rest, groups = l ++ rest -> alloc <> 4 + bytes_of l) -> groups_seen alloc groups = Err EInstruct.
Proof.
  intros alloc groups A N. unfold groups_seen. destruct (whole_groups (alloc - 4) groups) as [l more] eqn:W.
  destruct (whole_cut groups (alloc - 4) l more ltac:(lia) W ltac:(lia)) as (rest & E & ->). specialize (N l rest E).
  destruct (Z.eqb_spec (alloc - 4 - bytes_of l) 0); [lia|reflexivity].
Qed.
Lemma bytes_prefix : forall l rest, bytes_of (l ++ rest) = bytes_of l + bytes_of rest.
Proof. intros l rest. unfold bytes_of, zlen. rewrite flat_map_app, app_length. lia. Qed.
Lemma no_bytes : forall l, bytes_of l <= 0 -> l = [].
Proof. intros [|g l] H; [reflexivity|]. rewrite bytes_cons in H. unfold bytes_of, zlen in H. lia. Qed.
Lemma seen_ok : forall alloc groups v, 4 <= alloc -> groups_seen alloc groups = Ok v ->
  exists l rest, groups = l ++ rest /\ v = some_groups (bytes_of groups) l /\ (rest = [] <-> 4 + bytes_of groups <= alloc).
Proof.
  intros alloc groups v A E. destruct (Z.le_gt_cases (4 + bytes_of groups) alloc) as [L|L].
  - unfold groups_seen in E. rewrite whole_all in E by (unfold bytes_of in L; lia). injection E as <-. exists groups, []. rewrite app_nil_r.
    repeat split; auto.
  - unfold groups_seen in E. destruct (whole_groups (alloc - 4) groups) as [l more] eqn:W.
    destruct (whole_cut groups (alloc - 4) l more ltac:(lia) W ltac:(lia)) as (rest & G & ->). destruct (Z.eqb_spec (alloc - 4 - bytes_of l) 0) as [Z0|Z0]; [|discriminate E].
    injection E as <-. exists l, rest. split; [exact G|]. split; [reflexivity|]. split; [|lia]. intros ->. rewrite app_nil_r in G. subst. lia.
Qed.

(** * Runs *)
Section Runs.
Context (T : Type) (tgt : target T) (groups : T -> list port_group) (next : T -> T) (sys : system T).
Context (F : one_of_four sys) (D : reports_groups tgt groups next).

Lemma all_fit_run : forall alloc t s, idle sys s t -> 4 + bytes_of (groups t) <= alloc < 2 ^ 32 ->
  exists s', sync_wait_ends (coroutine (os_of sys tgt) (Do (Rtpg 0 alloc) finish)) s s' (shown (Ok (some_groups (bytes_of (groups t)) (groups t)))) /\ idle sys s' (next t).
Proof.
  intros alloc t s Hi A. pose proof (one_run _ _ _ _ D sys alloc t s F Hi) as X. rewrite seen_all in X by (unfold bytes_of in A; lia).
  apply X. unfold bytes_of, zlen in A. lia.
Qed.
Lemma boundary_run : forall l rest t s, idle sys s t -> groups t = l ++ rest ->
  exists s', sync_wait_ends (coroutine (os_of sys tgt) (Do (Rtpg 0 (4 + bytes_of l)) finish)) s s' (shown (Ok (some_groups (bytes_of (l ++ rest)) l))) /\ idle sys s' (next t).
Proof.
  intros l rest t s Hi E. pose proof (one_run _ _ _ _ D sys (4 + bytes_of l) t s F Hi) as X. rewrite E, seen_boundary in X.
  apply X. destruct (rg_groups _ _ _ D t) as [_ L]. rewrite E in L. fold (bytes_of (l ++ rest)) in L. rewrite bytes_prefix in L.
  unfold bytes_of, zlen in *. lia.
Qed.
Lemma cut_run : forall alloc t s, idle sys s t -> 4 <= alloc < 4 + bytes_of (groups t) ->
  (forall l rest, groups t = l ++ rest -> alloc <> 4 + bytes_of l) ->
  exists s', sync_wait_ends (coroutine (os_of sys tgt) (Do (Rtpg 0 alloc) finish)) s s' (Threw EInstruct) /\ idle sys s' (next t).
Proof.
  intros alloc t s Hi A N. pose proof (one_run _ _ _ _ D sys alloc t s F Hi) as X. rewrite seen_cut in X by assumption.
  apply X. destruct (rg_groups _ _ _ D t) as [_ L]. unfold bytes_of in A. lia.
Qed.
Lemma fetched_run : forall t s, idle sys s t ->
  exists s', sync_wait_ends (coroutine (os_of sys tgt) fetch_groups) s s'
      (shown (groups_seen (4 + bytes_of (groups t)) (groups (next t)))) /\ idle sys s' (next (next t)).
Proof. intros t s Hi. exact (fetch_run _ _ _ _ D sys t s F Hi). Qed.
Lemma fetched_all : forall t s, idle sys s t -> bytes_of (groups (next t)) <= bytes_of (groups t) ->
  exists s', sync_wait_ends (coroutine (os_of sys tgt) fetch_groups) s s'
      (shown (Ok (some_groups (bytes_of (groups (next t))) (groups (next t))))) /\ idle sys s' (next (next t)).
Proof. intros t s Hi L. pose proof (fetched_run t s Hi) as X. rewrite seen_all in X by (unfold bytes_of in *; lia). exact X. Qed.
Lemma fetched_old : forall more t s, idle sys s t -> groups (next t) = groups t ++ more ->
  exists s', sync_wait_ends (coroutine (os_of sys tgt) fetch_groups) s s'
      (shown (Ok (some_groups (bytes_of (groups t) + bytes_of more) (groups t)))) /\ idle sys s' (next (next t)).
Proof. intros more t s Hi E. pose proof (fetched_run t s Hi) as X. rewrite E, seen_boundary, bytes_prefix in X. exact X. Qed.
Lemma told_run : forall alloc t s s' v, idle sys s t -> 4 <= alloc < 2 ^ 32 ->
  sync_wait_ends (coroutine (os_of sys tgt) (Do (Rtpg 0 alloc) finish)) s s' (shown (Ok v)) ->
  exists l rest, groups t = l ++ rest /\ v = some_groups (bytes_of (groups t)) l /\ (rest = [] <-> 4 + bytes_of (groups t) <= alloc).
Proof.
  intros alloc t s s' v Hi A R.
  pose proof (one_does _ _ _ _ D (pads sys) alloc t finish (next t) _ A (finish_does _ _ _ _ _)) as X.
  destruct (adaptive_only _ _ _ _ _ _ _ _ _ _ F X Hi R) as [E _].
  destruct (groups_seen alloc (groups t)) as [w|e] eqn:G; cbn [shown] in E; [|discriminate E].
  assert (V : v = w) by (injection E as E; apply (f_equal python_value) in E; rewrite !python_yielded in E; exact E). subst w. apply seen_ok; [lia|exact G].
Qed.
Lemma header_run : forall alloc t s, idle sys s t -> 1 <= alloc < 4 ->
  exists s', sync_wait_ends (coroutine (os_of sys tgt) (Do (Rtpg 0 alloc) finish)) s s' (Threw EInstruct) /\ idle sys s' (next t).
Proof.
  intros alloc t s Hi A. refine (adaptive _ _ _ _ _ _ (Err EInstruct) _ F _ Hi).
  destruct (issued_rtpg alloc ltac:(lia)) as (cdb & J & C).
  eapply does_seen; [exact Logic.I|exact J|cbn [moderate]; lia|exact (rg_answer _ _ _ D t cdb [] alloc C)|apply ordinary_good| |apply (finish_does _ _ _ _ (Err EInstruct))].
  rewrite seen_nice. destruct (got_data (pads sys) cdb alloc (length_only_data (groups t))) as (m & E & M); [lia| |].
  { unfold length_only_data. cbv zeta. unfold zlen. rewrite app_length, be_bytes_length. lia. }
  rewrite E. cbn [constructed]. unfold yields, rtpg. cbn [Z.eqb orb assert_ bind o_finish o_attrs].
  change (attr "parameter_data_format" _) with 0. cbn [Z.eqb parsed]. unfold unpack, rtpg_length_only. cbn [c_fields c_name].
  unfold length_only_data. cbv zeta. set (n := zlen (flat_map group_data (groups t))). rewrite <- app_assoc, firstn_app, be_bytes_length.
  replace (Z.to_nat alloc - 4)%nat with 0%nat by lia. cbn [firstn]. rewrite app_nil_r.
  set (b := firstn (Z.to_nat alloc) (be_bytes 4 n)). assert (L : (length b < 4)%nat) by (subst b; rewrite firstn_length, be_bytes_length; lia).
  assert (O : bytes_ok b) by (apply bytes_ok_firstn, be_bytes_ok). clearbody b. uf_step O. too_short. reflexivity.
Qed.
End Runs.
