(** C108: finding the paths that lead through active/optimized target ports. *)
From Coq Require Import String ZArith List Bool Lia.
From Verif Require Import Base Gen SpecGen OsCommon OsLinux Executer SpecSg SpecDrivers Instruct Command CdbPrimary SpecDevice SpecCdb SpecExecute SpecPortable SpecReserve SpecAdaptive SpecPages
  SpecPaths PathsFacts SpecAlua AluaFacts.
Import ListNotations.
Local Open Scope string_scope.
Local Open Scope list_scope.
Local Open Scope Z_scope.

(** On each of the four systems the coroutine ends with the paths that work and lead to a port whose target port group is
    active/optimized; if no path works, with the exception for that. *)
Theorem C108_optimized_paths : forall T (sys : system T) loss n tgt groups type qualifier ids up ds t m, raises_when_gone sys loss -> ready sys n m t ->
  alua_array tgt groups type qualifier ids up -> moderate_groups groups -> Forall (fun d => (d < n)%nat) ds -> ds <> [] ->
  exists m' t', sync_wait_ends (job_coroutine sys tgt (optimized_paths ds)) m m'
      (shown (if existsb up ds then Ok (PList (map (fun d => PInt (Z.of_nat d)) (filter (fun d => up d && optimized groups (ids d)) ds))) else Err loss)) /\
    ready sys n m' t'.
Proof.
  intros T sys loss n tgt groups type qualifier ids up ds t m L R A G F N.
  destruct (paths_found n tgt (pads sys) loss groups type qualifier ids up A (loss_other _ _ _ L) G ds t F N) as (t' & H).
  destruct (jobs _ _ _ _ _ _ _ _ _ m L H R) as (m' & E & R'). eauto.
Qed.
(** [optimized] as the standard has it, when the numbers of the groups are different and the port is in one of them. *)
Theorem C108_optimized : forall groups l g, NoDup (map g_number groups) -> In g groups -> group_numbers l = [g_number g] ->
  optimized groups l = (g_state g =? 0).
Proof.
  intros groups l g D I E. apply eq_true_iff_eq. unfold optimized. rewrite E, existsb_exists. split.
  - intros (h & H & X). apply andb_prop in X. destruct X as [S X]. cbn [existsb] in X. rewrite orb_false_r in X. apply Z.eqb_eq in X.
    replace g with h; [exact S|]. clear E S. induction groups as [|x groups IH]; [destruct H|]. inversion D as [|y z D1 D2]; subst.
    destruct H as [->|H], I as [->|I]; [reflexivity| | |apply IH; assumption].
    + exfalso. apply D1. rewrite X. apply in_map. exact I.
    + exfalso. apply D1. rewrite <- X. apply in_map. exact H.
  - intro S. exists g. split; [exact I|]. rewrite S. cbn [existsb andb]. rewrite Z.eqb_refl. reflexivity.
Qed.
(** With a group of 128 ports the ports may be taken for groups, which are active/optimized: the only path is chosen though
    the only group is in standby. *)
Theorem C108_many_ports_refuted : exists groups ids, Forall group_ok groups /\ zlen (length_only_data groups) <= 16384 /\
  Forall (fun g => g_state g = 2) groups /\
  alua_array (sample_array groups 0 0 ids (fun _ => true)) groups 0 0 ids (fun _ => true) /\
  forall sys loss n m, raises_when_gone sys loss -> ready sys n m tt -> (0 < n)%nat ->
  exists m', sync_wait_ends (job_coroutine sys (sample_array groups 0 0 ids (fun _ => true)) (optimized_paths [0%nat])) m m' (shown (Ok (PList [PInt 0]))).
Proof.
  exists [many_ports], (fun _ => [in_group 256]). split; [|split; [|split; [|split]]].
  - constructor; [|constructor]. repeat split; try (cbn; lia). apply Forall_forall. intros p I. apply in_map_iff in I. destruct I as (i & <- & I).
    apply in_seq in I. lia.
  - vm_compute. discriminate.
  - repeat constructor.
  - apply sample_is_array; [unfold below; lia|unfold below; lia|]. intros _. apply in_group_ok. lia.
  - intros sys loss n m L R N. destruct (jobs _ _ _ _ _ _ _ _ _ m L (many_ports_mislead n (pads sys) loss N) R) as (m' & E & _). eauto.
Qed.

(** ** Examples *)

(** Four paths, two groups; path 2 does not work. *)
Definition example_groups : list port_group :=
  [SpecDevice.PortGroup 0 1 15 1 0 [1; 2; 3]; SpecDevice.PortGroup 1 0 15 2 0 [4]].
Definition ids_at (port group : Z) : list designator :=
  [Designator (DesignatorInfo 1 0 0 0) (NaaRegistered 0x742b0f 17); Designator (DesignatorInfo 1 0 1 0) (RelativePort port); in_group group].
Definition example_ids (d : nat) : list designator :=
  match d with 0%nat => ids_at 1 1 | 1%nat => ids_at 2 1 | 2%nat => ids_at 3 1 | _ => ids_at 4 2 end.
Definition example_up (d : nat) : bool := negb (d =? 2)%nat.
Example C108_array_example : alua_array (sample_array example_groups 0 0 example_ids example_up) example_groups 0 0 example_ids example_up.
Proof.
  apply sample_is_array; [unfold below; lia|unfold below; lia|].
  assert (K : forall p g, In p [1; 2; 3; 4] -> In g [1; 2] -> Forall designator_ok (ids_at p g) /\ zlen (flat_map descriptor_bytes (ids_at p g)) <= 248).
  { intros p g P G. split.
    - constructor; [|constructor; [|apply in_group_ok; cbn in G; lia]].
      + split; [repeat split; cbn; lia|]. split; [vm_compute; repeat constructor; discriminate|]. split; [vm_compute; discriminate|]. cbn [d_id]. unfold below. lia.
      + split; [repeat split; cbn; lia|]. cbn in P. split; [|split].
        * cbn [d_id id_bytes]. repeat (destruct P as [<-|P]; [vm_compute; repeat constructor; discriminate|]). destruct P.
        * cbn [d_id]. repeat (destruct P as [<-|P]; [vm_compute; discriminate|]). destruct P.
        * cbn [d_id]. unfold below. lia.
    - cbn in P, G. repeat (destruct P as [<-|P]; [repeat (destruct G as [<-|G]; [vm_compute; discriminate|]); destruct G|]). destruct P. }
  intro d. unfold example_ids. destruct d as [|[|[|d]]]; apply K; cbn; auto.
Qed.
Example C108_example : moderate_groups example_groups /\
  filter (fun d => example_up d && optimized example_groups (example_ids d)) [0%nat; 1%nat; 2%nat; 3%nat] = [0%nat; 1%nat] /\
  existsb example_up [0%nat; 1%nat; 2%nat; 3%nat] = true /\ NoDup (map g_number example_groups) /\ group_numbers (example_ids 3) = [2].
Proof.
  split; [|split; [reflexivity|split; [reflexivity|split; [|reflexivity]]]].
  - split; [|vm_compute; discriminate]. repeat constructor; cbn; lia.
  - cbn. repeat constructor; cbn; intuition lia.
Qed.

Print Assumptions C108_optimized_paths.
Print Assumptions C108_optimized.
Print Assumptions C108_many_ports_refuted.
