(** Facts about SpecAlua.v. *)
From Coq Require Import String ZArith List Bool Lia.
From Verif Require Import Base BaseFacts Gen SpecGen OsCommon Instruct Command CdbPrimary CdbPrimaryFacts CdbPropFacts RtpgFacts SpecDevice SpecCdb CdbAllFacts SpecSg SpecDrivers SpecExecute
  SpecSense SpecPortable SpecReserve SpecAdaptive AdaptiveFacts SpecLayout SpecPages Pages SpecVpd SpecDiscover DiscoverFacts SpecPaths PathsFacts SpecAlua.
Import ListNotations.
Local Open Scope string_scope.
Local Open Scope list_scope.
Local Open Scope Z_scope.

Lemma rtpg_issued : exists cdb, issued (Rtpg 0 16384) = Ok (ReadCmd cdb 16384) /\ interpret cdb = Some (OpReportTargetPortGroups 0 16384).
Proof.
  pose proof (rtpg_spec 0 16384) as S. unfold issued. cbn [constructed].
  destruct (do o <- rtpg 0 16384; request o) as [k|e] eqn:J.
  - destruct (asks_ok _ _ _ _ _ S eq_refl) as (_ & cdb & -> & X). eauto.
  - exfalso. apply S. lia.
Qed.

Definition reported (groups : list port_group) : pyval :=
  groups_object "TargetPortGroupLengthOnlyResponse" [("data_length", PInt (zlen (flat_map group_data groups)))] groups.
Lemma rtpg_seen : forall padded cdb groups, moderate_groups groups ->
  seen padded (Rtpg 0 16384) (ReadCmd cdb 16384) (good (firstn (Z.to_nat 16384) (length_only_data groups))) = Ok (reported groups).
Proof.
  intros padded cdb groups [G L].
  assert (P : 0 < zlen (length_only_data groups)) by (unfold length_only_data; cbv zeta; unfold zlen; rewrite app_length, be_bytes_length; lia).
  rewrite seen_nice, got_page by lia. unfold filled. cbn [constructed].
  apply rtpg_length_only_spec; [exact G| |].
  - unfold length_only_data in L. cbv zeta in L. unfold zlen in *. rewrite app_length, be_bytes_length in L. lia.
  - destruct padded; [|constructor]. apply Forall_forall. intros x I. apply repeat_spec in I. subst. cbv; intuition congruence.
Qed.

(** * What the coroutine looks for *)

Lemma groups_listed : forall groups, optimized_groups (reported groups) = map (fun g => PInt (g_number g)) (filter (fun g => g_state g =? 0) groups).
Proof.
  intro groups. change (optimized_groups (reported groups)) with
    (flat_map (fun g => if has_number "asymetric_access_state" 0 g then match attribute_of "target_port_group" g with Some n => [n] | None => [] end else [])
       (map group_object groups)).
  induction groups as [|g groups IH]; [reflexivity|]. cbn [map flat_map filter].
  change (has_number "asymetric_access_state" 0 (group_object g)) with (g_state g =? 0).
  change (attribute_of "target_port_group" (group_object g)) with (Some (PInt (g_number g))).
  rewrite IH. destruct (g_state g =? 0); reflexivity.
Qed.
Lemma among_in : forall n l, among n (map (fun g => PInt (g_number g)) l) = existsb (fun g => g_number g =? n) l.
Proof. intros n l. induction l as [|g l IH]; [reflexivity|]. cbn [map among existsb] in *. unfold among in IH. rewrite IH. reflexivity. Qed.
Lemma designator_found : forall d found, designator_ok d ->
  has_number "designator_type" 5 (designator_object d) && match attribute_of "target_port_group" (designator_object d) with Some (PInt n) => found n | _ => false end =
  existsb found (match d_id d with SpecPages.PortGroup n => [n] | _ => [] end).
Proof.
  intros [i id] found [_ (_ & _ & O)]. destruct id; cbn [d_id] in *; try reflexivity.
  - cbn. rewrite orb_false_r. reflexivity.
  - change (has_number "designator_type" 5 (designator_object (Designator i (ReservedType type id)))) with (type =? 5).
    destruct (Z.eqb_spec type 5); [lia|reflexivity].
Qed.
Lemma leads : forall groups type qualifier n l, Forall designator_ok l ->
  leads_to (optimized_groups (reported groups)) (page_83_object type qualifier n l) = optimized groups l.
Proof.
  intros groups type qualifier n l F. rewrite groups_listed. apply eq_true_iff_eq.
  change (leads_to ?o (page_83_object type qualifier n l)) with
    (existsb (fun d => has_number "designator_type" 5 d && match attribute_of "target_port_group" d with Some (PInt n) => among n o | _ => false end) (map designator_object l)).
  unfold optimized. rewrite !existsb_exists. split.
  - intros (v & I & H). apply in_map_iff in I. destruct I as (d & <- & I). rewrite Forall_forall in F.
    rewrite (designator_found d _ (F d I)) in H. apply existsb_exists in H. destruct H as (m & M & A). rewrite among_in in A.
    apply existsb_exists in A. destruct A as (g & G & E). apply filter_In in G. destruct G as [G S]. exists g. split; [exact G|].
    rewrite S. cbn [andb]. apply existsb_exists. exists m. split; [|exact E]. apply in_flat_map. exists d. auto.
  - intros (g & G & H). apply andb_prop in H. destruct H as [S H]. apply existsb_exists in H. destruct H as (m & M & E).
    apply in_flat_map in M. destruct M as (d & I & M). exists (designator_object d). split; [apply in_map; exact I|].
    rewrite Forall_forall in F. rewrite (designator_found d _ (F d I)). apply existsb_exists. exists m. split; [exact M|]. rewrite among_in.
    apply existsb_exists. exists g. split; [apply filter_In; auto|exact E].
Qed.

(** * Running it *)
Section Run.
Context {T : Type} (n : nat) (tgt : nat -> target T) (padded : bool) (loss : exn) (groups : list port_group) (type qualifier : Z)
  (ids : nat -> list designator) (up : nat -> bool).
Context (A : alua_array tgt groups type qualifier ids up) (Loss : forall s, loss <> EAsiCheckCondition s).

Lemma groups_asked : moderate_groups groups -> forall ds t, Forall (fun d => (d < n)%nat) ds -> ds <> [] ->
  exists t', happens n tgt padded loss t (failover ds (Rtpg 0 16384)) t' (if existsb up ds then Ok (reported groups) else Err loss).
Proof.
  intro G. destruct rtpg_issued as (cdb & J & X). induction ds as [|d ds IH]; intros t F N; [congruence|]. inversion F as [|y z Fd Fr]; subst.
  cbn [existsb failover]. destruct (up d) eqn:U; cbn [orb].
  - destruct (aa_groups _ _ _ _ _ _ A d t cdb [] _ U X) as (t1 & E). exists t1.
    eapply hp_command; [exact Fd|exact Logic.I|exact J|cbn [moderate]; lia|exact E|apply ordinary_good|]. cbv beta. rewrite rtpg_seen by exact G. constructor.
  - destruct (aa_down _ _ _ _ _ _ A d t cdb [] U) as (t1 & a & E & Z0).
    assert (K : exists t', happens n tgt padded loss t1 (match ds with [] => JFail loss | _ => failover ds (Rtpg 0 16384) end) t'
                  (if existsb up ds then Ok (reported groups) else Err loss)).
    { destruct ds as [|d' ds]; [exists t1; constructor|]. apply IH; [exact Fr|discriminate]. }
    destruct K as (t' & K). exists t'.
    eapply hp_gone; [exact Fd|exact Logic.I|exact J|cbn [moderate]; lia|exact E|exact Z0|]. cbv beta iota.
    destruct loss; try (exfalso; eapply Loss; reflexivity); exact K.
Qed.

Lemma page_length : forall d, 0 < zlen (page_83 type qualifier (flat_map descriptor_bytes (ids d))) <= fst (vpd_page 131).
Proof.
  intro d. destruct (aa_ids _ _ _ _ _ _ A d) as [_ L]. change (fst (vpd_page 131)) with 252. unfold page_83, zlen in *. cbn [length].
  rewrite app_length, be_bytes_length. lia.
Qed.
Lemma paths_checked : forall ds found t, Forall (fun d => (d < n)%nat) ds ->
  exists t', happens n tgt padded loss t (check_paths ds (optimized_groups (reported groups)) found) t'
    (Ok (PList (found ++ map (fun d => PInt (Z.of_nat d)) (filter (fun d => up d && optimized groups (ids d)) ds)))).
Proof.
  destruct (vpd_issued 131 ltac:(unfold below; lia)) as (cdb & J & X). pose proof (vpd_allocation 131) as V.
  induction ds as [|d ds IH]; intros found t F; cbn [check_paths filter].
  - exists t. rewrite app_nil_r. constructor.
  - inversion F as [|y z Fd Fr]; subst. destruct (up d) eqn:U; cbn [andb].
    + destruct (aa_page _ _ _ _ _ _ A d t cdb [] _ U X) as (t1 & E). destruct (aa_ids _ _ _ _ _ _ A d) as [O L].
      destruct (aa_type _ _ _ _ _ _ A) as [B1 B2].
      assert (S : seen padded (vpd_command 131) (ReadCmd cdb (fst (vpd_page 131)))
                    (good (firstn (Z.to_nat (fst (vpd_page 131))) (page_83 type qualifier (flat_map descriptor_bytes (ids d))))) =
                  Ok (page_83_object type qualifier (zlen (flat_map descriptor_bytes (ids d))) (ids d))).
      { unfold vpd_command. rewrite inquiry_seen by apply page_length. unfold filled. apply page_83_reads; [exact B1|exact B2|exact O|lia]. }
      destruct (IH (if optimized groups (ids d) then found ++ [PInt (Z.of_nat d)] else found) t1 Fr) as (t' & K). exists t'.
      eapply hp_command; [exact Fd|exact Logic.I|exact J|cbn [moderate]; lia|exact E|apply ordinary_good|]. cbv beta. rewrite S, leads by exact O.
      destruct (optimized groups (ids d)); [rewrite <- app_assoc in K|]; exact K.
    + destruct (aa_down _ _ _ _ _ _ A d t cdb [] U) as (t1 & a & E & Z0). destruct (IH found t1 Fr) as (t' & K). exists t'.
      eapply hp_gone; [exact Fd|exact Logic.I|exact J|cbn [moderate]; lia|exact E|exact Z0|]. exact K.
Qed.

Lemma paths_found : moderate_groups groups -> forall ds t, Forall (fun d => (d < n)%nat) ds -> ds <> [] ->
  exists t', happens n tgt padded loss t (optimized_paths ds) t'
    (if existsb up ds then Ok (PList (map (fun d => PInt (Z.of_nat d)) (filter (fun d => up d && optimized groups (ids d)) ds))) else Err loss).
Proof.
  intros G ds t F N. destruct (groups_asked G ds t F N) as (t1 & H). unfold optimized_paths. destruct (existsb up ds).
  - destruct (paths_checked ds [] t1 F) as (t' & K). exists t'. eapply hp_call; [exact H|]. exact K.
  - exists t1. eapply hp_call; [exact H|]. constructor.
Qed.
End Run.

(** * An array *)
Definition sample_array (groups : list port_group) (type qualifier : Z) (ids : nat -> list designator) (up : nat -> bool) (d : nat) : target unit :=
  fun t cdb _ =>
    if up d then
      match interpret cdb with
      | Some (OpReportTargetPortGroups 0 alloc) => (t, good (firstn (Z.to_nat alloc) (length_only_data groups)))
      | Some (OpInquiry 1 131 alloc) => (t, good (firstn (Z.to_nat alloc) (page_83 type qualifier (flat_map descriptor_bytes (ids d)))))
      | _ => (t, good [])
      end
    else (t, no_answer).
Lemma sample_is_array : forall groups type qualifier ids up, below 5 type -> below 3 qualifier ->
  (forall d, Forall designator_ok (ids d) /\ zlen (flat_map descriptor_bytes (ids d)) <= 248) ->
  alua_array (sample_array groups type qualifier ids up) groups type qualifier ids up.
Proof.
  intros groups type qualifier ids up B1 B2 I. split; [exact I|auto| | |].
  - intros d t cdb data U. unfold sample_array. rewrite U. eexists _, _. split; [reflexivity|apply no_answer_gone].
  - intros d t cdb data alloc U X. unfold sample_array. rewrite U, X. eauto.
  - intros d t cdb data alloc U X. unfold sample_array. rewrite U, X. eauto.
Qed.

(** Target port group 256 with the ports 256, 512, 768, ...: all in standby. *)
Definition many_ports : port_group := SpecDevice.PortGroup 2 0 15 256 0 (map (fun i => 256 * Z.of_nat i) (seq 1 128)).
Definition in_group (n : Z) : designator := Designator (DesignatorInfo 1 0 1 0) (SpecPages.PortGroup n).
Lemma in_group_ok : forall n, 0 <= n < 65536 -> Forall designator_ok [in_group n] /\ zlen (flat_map descriptor_bytes [in_group n]) <= 248.
Proof.
  intros n N. assert (L : zlen (id_bytes (SpecPages.PortGroup n)) = 4) by (unfold zlen; cbn [id_bytes length]; rewrite be_bytes_length; reflexivity).
  split.
  - constructor; [|constructor]. split; [repeat split; cbn; lia|]. split; [|split].
    + cbn [in_group d_id id_bytes]. constructor; [unfold byte_ok; lia|]. constructor; [unfold byte_ok; lia|]. apply be_bytes_ok.
    + change (zlen (id_bytes (SpecPages.PortGroup n)) <= 255). lia.
    + change (below 16 n). unfold below. lia.
  - change (zlen ([1; 21; 0; zlen (id_bytes (SpecPages.PortGroup n))] ++ id_bytes (SpecPages.PortGroup n) ++ []) <= 248). rewrite app_nil_r.
    unfold zlen in *. rewrite app_length. cbn [length] in *. lia.
Qed.
Lemma many_ports_seen : forall padded cdb, exists v,
  seen padded (Rtpg 0 16384) (ReadCmd cdb 16384) (good (firstn (Z.to_nat 16384) (length_only_data [many_ports]))) = Ok v /\
  among 256 (optimized_groups v) = true.
Proof.
  intros padded cdb. assert (L : zlen (length_only_data [many_ports]) = 524) by (vm_compute; reflexivity).
  rewrite seen_nice, got_page by lia. unfold filled. cbn [constructed].
  destruct padded; (eexists; split; [vm_compute; reflexivity|vm_compute; reflexivity]).
Qed.
Lemma many_ports_mislead : forall n padded loss, (0 < n)%nat ->
  happens n (sample_array [many_ports] 0 0 (fun _ => [in_group 256]) (fun _ => true)) padded loss tt (optimized_paths [0%nat]) tt (Ok (PList [PInt 0])).
Proof.
  intros n padded loss N. pose proof (sample_is_array [many_ports] 0 0 (fun _ => [in_group 256]) (fun _ => true) ltac:(unfold below; lia)
    ltac:(unfold below; lia) (fun _ => in_group_ok 256 ltac:(lia))) as A.
  destruct rtpg_issued as (cdb & J & X). destruct (many_ports_seen padded cdb) as (v & V & M).
  unfold optimized_paths. apply hp_call with (t1 := tt) (rq := Ok v).
  - cbn [failover]. destruct (aa_groups _ _ _ _ _ _ A 0%nat tt cdb [] _ eq_refl X) as ([] & E).
    eapply hp_command; [exact N|exact Logic.I|exact J|cbn [moderate]; lia|exact E|apply ordinary_good|]. cbv beta. rewrite V. constructor.
  - cbv beta iota. cbn [check_paths]. destruct (vpd_issued 131 ltac:(unfold below; lia)) as (cdb' & J' & X'). pose proof (vpd_allocation 131) as W.
    destruct (aa_page _ _ _ _ _ _ A 0%nat tt cdb' [] _ eq_refl X') as ([] & E). destruct (aa_ids _ _ _ _ _ _ A 0%nat) as [O L].
    eapply hp_command; [exact N|exact Logic.I|exact J'|cbn [moderate]; lia|exact E|apply ordinary_good|]. cbv beta.
    unfold vpd_command. rewrite inquiry_seen by (apply (page_length _ _ _ _ _ _ A 0%nat)). unfold filled.
    rewrite page_83_reads; [|unfold below; lia|unfold below; lia|exact O|lia].
    change (leads_to (optimized_groups v) _) with ((true && among 256 (optimized_groups v)) || false). rewrite M. constructor.
Qed.
