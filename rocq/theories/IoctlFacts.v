(** Lemmas on programs on the SG_IO executer. *)
From Coq Require Import String ZArith List Bool Lia.
From Verif Require Import Base BaseFacts Gen SpecGen GenFacts Executer SpecCall ExecFacts
  OsCommon OsLinux SpecSg SpecSession LinuxFacts SessionFacts
  Instruct Command SpecDevice SpecCdb CdbAllFacts SpecExecute ExecuteFacts DiskFacts SpecPortable PortableFacts SpecIoctl.
Import ListNotations.
Local Open Scope Z_scope.

Lemma ioctl_step : forall T A sense_of (tgt : target T) timeout,
  steps (linux_ioctl_os (A := A) sense_of (honest tgt) timeout) tgt always_success linux_idle fits (fun _ => True).
Proof.
  intros T A sense_of tgt timeout s t me c t' a (H1 & H2 & H3 & h & buf & H4) Hc Ht _ Hl.
  destruct (linux_ioctl_call (A := A) sense_of tgt timeout s me c t [] h buf t' a) as (h' & buf' & E); auto; try lia.
  - rewrite H1. cbn. lia.
  - rewrite H1. reflexivity.
  - eexists. split; [exact E|]. split; [|reflexivity].
    split; [exact H1|]. split; [exact H2|]. split; [cbn; apply Z.mod_pos_bound; lia|]. cbn. eauto.
Qed.

Lemma ioctl_commands : forall T sense_of (tgt : target T) timeout objs s t t' l, linux_idle s t ->
  device_session tgt always_success fits (fun _ => True) t (map snd objs) t' l ->
  NoDup (map fst objs) -> (forall me, In me (map fst objs) -> ~ In me (map fst (cb_log s))) ->
  exists s', user_session (linux_ioctl_os sense_of (honest tgt) timeout) s objs s' (map shown l) /\ linux_idle s' t'.
Proof. intros T sense_of tgt timeout. eapply run_sessions. apply ioctl_step. Qed.

Lemma library_ioctl : forall T sense_of (tgt : target T) timeout s t me c k t' a,
  linux_idle s t -> ~ In me (map fst (cb_log s)) ->
  proper c -> issued c = Ok k -> moderate k -> tgt t (command_of k) (data_out k) = (t', a) ->
  interpret (command_of k) = Some (meaning c) /\
  exists s', user_runs (linux_ioctl_os sense_of (honest tgt) timeout) me s (constructed c) s'
      (shown (yields (constructed c) (data_wanted k (a_data a)))) /\
    linux_idle s' t'.
Proof.
  intros T sense_of tgt timeout s t me c k t' a Hi Hl P J M G.
  exact (library_one (linux_ioctl_os (A := pyval) sense_of (honest tgt) timeout) tgt always_success linux_idle fits (fun _ => True)
    (ioctl_step _ _ _ _ _) fits_linux s t me c k t' a Hi Hl P J M G Logic.I).
Qed.

Lemma carried_session : forall T (tgt tgt' : target T) objs t, same_data tgt tgt' -> Forall carried objs ->
  exists t' l, device_session tgt always_success fits (fun _ => True) t objs t' l /\
    device_session tgt' always_success fits (fun _ => True) t objs t' l.
Proof.
  intros T tgt tgt' objs t S H. revert t. induction H as [|r objs C H IH]; intros t.
  - exists t, []. split; constructor.
  - destruct r as [o|e].
    + cbn in C. destruct (request o) as [c|e] eqn:Q.
      * destruct (tgt t (command_of c) (data_out c)) as [t1 a] eqn:G.
        destruct (tgt' t (command_of c) (data_out c)) as [t1' a'] eqn:G'.
        destruct (S t (command_of c) (data_out c)) as [S1 S2]. rewrite G, G' in S1, S2. cbn in S1, S2. subst t1'.
        destruct (IH t1) as (t' & l & D & D').
        exists t', (result_of always_success o c a :: l). split.
        -- eapply ds_done; eauto.
        -- replace (result_of always_success o c a) with (result_of always_success o c a').
           ++ eapply ds_done; eauto.
           ++ unfold result_of, always_success. rewrite S2. reflexivity.
      * destruct (IH t) as (t' & l & D & D'). exists t', (Err e :: l). split; apply ds_not_packed; auto.
    + destruct (IH t) as (t' & l & D & D'). exists t', (Err e :: l). split; apply ds_not_constructed; auto.
Qed.

Lemma ioctl_silent : forall T sense_of (tgt tgt' : target T) timeout objs s t, linux_idle s t -> same_data tgt tgt' ->
  Forall carried (map snd objs) ->
  NoDup (map fst objs) -> (forall me, In me (map fst objs) -> ~ In me (map fst (cb_log s))) ->
  exists t' outs s1 s2,
    user_session (linux_ioctl_os sense_of (honest tgt) timeout) s objs s1 outs /\ linux_idle s1 t' /\
    user_session (linux_ioctl_os sense_of (honest tgt') timeout) s objs s2 outs /\ linux_idle s2 t'.
Proof.
  intros T sense_of tgt tgt' timeout objs s t Hi S C Hn Hf.
  destruct (carried_session T tgt tgt' _ t S C) as (t' & l & D & D').
  destruct (ioctl_commands T sense_of tgt timeout objs s t t' l) as (s1 & U1 & I1); auto.
  destruct (ioctl_commands T sense_of tgt' timeout objs s t t' l) as (s2 & U2 & I2); auto.
  exists t', (map shown l), s1, s2. auto.
Qed.

Lemma ioctl_disk : forall T sense_of (tgt : target T) content bs capacity,
  1 <= bs -> block_device tgt content bs capacity ->
  forall timeout (cmds : list (nat * command)) s t d d' l, linux_idle s t ->
  disk_session bs capacity d (map snd cmds) d' l ->
  (forall k, 0 <= k < capacity -> content t k = d k) ->
  NoDup (map fst cmds) -> (forall me, In me (map fst cmds) -> ~ In me (map fst (cb_log s))) ->
  exists s' t', user_session (linux_ioctl_os sense_of (honest tgt) timeout) s
      (map (fun p => (fst p, constructed (snd p))) cmds) s' (map shown l) /\ linux_idle s' t' /\
    forall k, 0 <= k < capacity -> content t' k = d' k.
Proof.
  intros T sense_of tgt content bs capacity Hbs Dev timeout cmds s t d d' l Hi S E Hn Hf.
  destruct (disk_device tgt content bs capacity always_success fits (fun _ => True) Hbs Dev) with (5 := S) (6 := E) as (t' & X1 & X2).
  - auto.
  - intros c L K. split; [lia|exact K].
  - intros cdb data. unfold always_success. cbn [a_data good]. rewrite wanted_exact. reflexivity.
  - reflexivity.
  - rewrite map_map in X1.
    destruct (ioctl_commands T sense_of tgt timeout
      (map (fun p => (fst p, constructed (snd p))) cmds) s t t' l Hi) as (s' & Y1 & Y2).
    + rewrite map_map. exact X1.
    + rewrite map_map. exact Hn.
    + rewrite map_map. exact Hf.
    + exists s', t'. auto.
Qed.
