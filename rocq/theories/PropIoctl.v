(** C84: programs on the SG_IO executer. *)
From Coq Require Import String ZArith List Bool Lia.
From Verif Require Import Base BaseFacts Gen SpecGen Executer OsCommon OsLinux SpecSg
  SpecSession ExampleLinux Instruct Command CdbBlock CdbPrimary SpecDevice SpecCdb SpecExecute SpecPortable SpecIoctl IoctlFacts.
Import ListNotations.
Local Open Scope string_scope.
Local Open Scope Z_scope.

(** Every command of the library arrives as it was meant; its user always sees success. *)
Theorem C84_library : forall T sense_of (tgt : target T) timeout s t me c k t' a,
  linux_idle s t -> ~ In me (map fst (cb_log s)) ->
  proper c -> issued c = Ok k -> moderate k -> tgt t (command_of k) (data_out k) = (t', a) ->
  interpret (command_of k) = Some (meaning c) /\
  exists s', user_runs (linux_ioctl_os sense_of (honest tgt) timeout) me s (constructed c) s'
      (shown (yields (constructed c) (data_wanted k (a_data a)))) /\
    linux_idle s' t'.
Proof. exact library_ioctl. Qed.

(** Programs of any length. *)
Theorem C84_commands : forall T sense_of (tgt : target T) timeout objs s t t' l, linux_idle s t ->
  device_session tgt always_success fits (fun _ => True) t (map snd objs) t' l ->
  NoDup (map fst objs) -> (forall me, In me (map fst objs) -> ~ In me (map fst (cb_log s))) ->
  exists s', user_session (linux_ioctl_os sense_of (honest tgt) timeout) s objs s' (map shown l) /\ linux_idle s' t'.
Proof. exact ioctl_commands. Qed.

(** READs and WRITEs on a disk that never fails behave as on an array of blocks. *)
Theorem C84_disk : forall T sense_of (tgt : target T) content bs capacity,
  1 <= bs -> block_device tgt content bs capacity ->
  forall timeout (cmds : list (nat * command)) s t d d' l, linux_idle s t ->
  disk_session bs capacity d (map snd cmds) d' l ->
  (forall k, 0 <= k < capacity -> content t k = d k) ->
  NoDup (map fst cmds) -> (forall me, In me (map fst cmds) -> ~ In me (map fst (cb_log s))) ->
  exists s' t', user_session (linux_ioctl_os sense_of (honest tgt) timeout) s
      (map (fun p => (fst p, constructed (snd p))) cmds) s' (map shown l) /\ linux_idle s' t' /\
    forall k, 0 <= k < capacity -> content t' k = d' k.
Proof. exact ioctl_disk. Qed.

(** But no program can tell a device from one that fails with the same data. *)
Theorem C84_silent : forall T sense_of (tgt tgt' : target T) timeout objs s t, linux_idle s t -> same_data tgt tgt' ->
  Forall carried (map snd objs) ->
  NoDup (map fst objs) -> (forall me, In me (map fst objs) -> ~ In me (map fst (cb_log s))) ->
  exists t' outs s1 s2,
    user_session (linux_ioctl_os sense_of (honest tgt) timeout) s objs s1 outs /\ linux_idle s1 t' /\
    user_session (linux_ioctl_os sense_of (honest tgt') timeout) s objs s2 outs /\ linux_idle s2 t'.
Proof. exact ioctl_silent. Qed.

(** A WRITE that the device refused (CHECK CONDITION, DATA PROTECT) and a READ of it: success both times,
    and the data read are zeros. *)
Theorem C84_failed_write_noticed_refuted : exists (a : answer) s',
  is_check_condition (a_status a) (a_driver a) = true /\
  user_session (linux_ioctl_os any_sense (honest (fixed_target a)) 3000) (fresh 1)
    [(1%nat, constructed (Write10 7 [1; 2; 3; 4] 4 [])); (2%nat, constructed (Read10 7 1 4 []))] s'
    [Returned (RVal VNone); Returned (RVal (VData (DBytes [0; 0; 0; 0])))].
Proof.
  pose (a := Answer 2 0 8 [] [112; 0; 7; 0; 0; 0; 0; 10; 0; 0; 0; 0; 39; 0; 0; 0; 0; 0]).
  exists a.
  assert (W : exists o, constructed (Write10 7 [1; 2; 3; 4] 4 []) = Ok o /\ request o = Ok (WriteCmd [42; 0; 0; 0; 0; 7; 0; 0; 1; 0] [1; 2; 3; 4]) /\
    result_of always_success o (WriteCmd [42; 0; 0; 0; 0; 7; 0; 0; 1; 0] [1; 2; 3; 4]) a = Ok PNone)
    by (eexists; split; [reflexivity|split; vm_compute; reflexivity]).
  assert (R : exists o, constructed (Read10 7 1 4 []) = Ok o /\ request o = Ok (ReadCmd [40; 0; 0; 0; 0; 7; 0; 0; 1; 0] 4) /\
    result_of always_success o (ReadCmd [40; 0; 0; 0; 0; 7; 0; 0; 1; 0] 4) a = Ok (PBytes [0; 0; 0; 0]))
    by (eexists; split; [reflexivity|split; vm_compute; reflexivity]).
  destruct W as (w & C1 & Q1 & F1), R as (r & C2 & Q2 & F2).
  destruct (C84_commands (list (bytes * bytes)) any_sense (fixed_target a) 3000
    [(1%nat, constructed (Write10 7 [1; 2; 3; 4] 4 [])); (2%nat, constructed (Read10 7 1 4 []))] (fresh 1) []
    [([42; 0; 0; 0; 0; 7; 0; 0; 1; 0], [1; 2; 3; 4]); ([40; 0; 0; 0; 0; 7; 0; 0; 1; 0], [])]
    [Ok PNone; Ok (PBytes [0; 0; 0; 0])]) as (s' & U & _).
  - repeat split; cbn; try lia. eauto.
  - cbn [map snd]. rewrite C1, C2, <- F1, <- F2.
    eapply ds_done; [exact Q1|split; cbn; lia|reflexivity|exact Logic.I|].
    eapply ds_done; [exact Q2|split; cbn; lia|reflexivity|exact Logic.I|]. constructor.
  - cbn. repeat constructor; cbn; intuition discriminate.
  - cbn. auto.
  - exists s'. split; [reflexivity|exact U].
Qed.

(** Two such devices, and objects that meet the hypotheses. *)
Example C84_silent_example :
  same_data (fixed_target (Answer 0 0 0 [9; 9] [])) (fixed_target (Answer 2 0 8 [9; 9] [112; 0; 3])) /\
  Forall carried [constructed TestUnitReady; constructed (Write10 7 [1; 2; 3; 4] 4 []); constructed (Read10 (-1) 1 512 [])].
Proof.
  split; [intros t cdb data; split; reflexivity|].
  repeat (apply Forall_cons; [vm_compute; auto|]). apply Forall_nil.
Qed.
Example C84_library_example :
  linux_idle (fresh 2) [] /\ proper (Read10 2048 8 512 []) /\
  issued (Read10 2048 8 512 []) = Ok (ReadCmd [40; 0; 0; 0; 8; 0; 0; 0; 8; 0] 4096) /\
  moderate (ReadCmd [40; 0; 0; 0; 8; 0; 0; 0; 8; 0] 4096).
Proof.
  split; [repeat split; cbn; try lia; eauto|]. split; [apply Forall_nil|]. split; [vm_compute; reflexivity|cbn; lia].
Qed.

(** All theorems at once: what is printed holds for each of them. *)
Definition all_theorems := (@C84_library, @C84_commands, @C84_disk, @C84_silent, @C84_failed_write_noticed_refuted).
Print Assumptions all_theorems.
