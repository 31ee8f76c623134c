(** Any number of commands in a row, on the four systems. *)
From Coq Require Import ZArith List Bool Lia.
From Verif Require Import Base BaseFacts Gen SpecGen GenFacts Executer SpecCall ExecFacts
  OsCommon OsLinux OsSolaris OsAix OsWin32 SpecSg SpecDrivers SpecSession LinuxFacts SolarisFacts AixFacts WinFacts.
Import ListNotations.
Open Scope Z_scope.

Lemma sync_user_sees : forall R W O C (os : os_layer R W O C) me c s s' rp,
  call_evaluates (call os me c) s s' (outcome_of rp) -> sync_wait_ends (call os me c) s s' (user_sees rp).
Proof.
  intros R W O C os me c s s' [[b|]|e] H; cbn in *.
  - apply sync_wait_value. exact H.
  - apply sync_wait_value. exact H.
  - apply sync_wait_raise. exact H.
Qed.

Section Session.
Context {R W O T : Type} (os : os_layer R W O scsi_command) (tgt : target T).
Context (expected : scsi_command -> answer -> resp).
Context (Idle : executer R W -> T -> Prop) (okc : scsi_command -> Prop) (oka : answer -> Prop).

(** One command after the other is possible. *)
Definition steps : Prop := forall s t me c t' a, Idle s t -> okc c -> tgt t (command_of c) (data_out c) = (t', a) -> oka a ->
  ~ In me (map fst (cb_log s)) ->
  exists s', call_evaluates (call os me c) s s' (outcome_of (expected c a)) /\ Idle s' t' /\
    cb_log s' = cb_log s ++ [(me, expected c a)].
Context (step : steps).

Lemma session : forall cmds s t t' l, Idle s t -> Forall okc (map snd cmds) ->
  target_run tgt t (map snd cmds) = (t', l) -> Forall oka l ->
  NoDup (map fst cmds) -> (forall me, In me (map fst cmds) -> ~ In me (map fst (cb_log s))) ->
  exists s', sync_calls os s cmds s' (map user_sees (reports expected (map snd cmds) l)) /\ Idle s' t'.
Proof.
  induction cmds as [|[me c] cmds IH]; intros s t t' l Hi Hc Hr Ha Hn Hf.
  - cbn in Hr. inversion Hr; subst. exists s. split; [constructor|exact Hi].
  - cbn in Hr. destruct (tgt t (command_of c) (data_out c)) as [t1 a] eqn:Et.
    destruct (target_run tgt t1 (map snd cmds)) as [t2 l2] eqn:Er. inversion Hr; subst.
    inversion Hc; subst. inversion Ha; subst. cbn in Hn. inversion Hn; subst.
    destruct (step s t me c t1 a Hi H1 Et H3) as (s1 & E1 & E2 & E3); [apply Hf; cbn; auto|].
    destruct (IH s1 t1 t' l2 E2 H2 Er H4 H6) as (s2 & F1 & F2).
    + intros me' Hin. rewrite E3, map_app, in_app_iff. intros [X|X].
      * apply (Hf me'); cbn; auto.
      * cbn in X. destruct X as [X|[]]. subst me'. contradiction.
    + exists s2. split; [|exact F2]. cbn. econstructor; [|exact F1]. apply sync_user_sees. exact E1.
Qed.
End Session.

Section Instances.
Context {T A : Type} (sense_of : bytes -> result unit) (tgt : target T).

Lemma linux_step : forall timeout, steps (linux_os (A := A) sense_of (honest tgt) timeout) tgt linux_expected linux_idle fits
    (fun a => is_check_condition (a_status a) (a_driver a) = true -> sense_of (pad 255 (a_sense a)) = Ok tt).
Proof.
  intros timeout.
  intros s t me c t' a (H1 & H2 & H3 & h & buf & H4) Hc Ht Ha Hl.
  destruct (linux_call (A := A) sense_of tgt timeout s me c t h buf t' a) as (h' & E); auto; try lia.
  - rewrite H1. cbn. lia.
  - rewrite H1. reflexivity.
  - eexists. split; [exact E|]. split; [|reflexivity].
    split; [exact H1|]. split; [exact H2|]. split; [cbn; apply Z.mod_pos_bound; lia|]. cbn. eauto.
Qed.

Theorem linux_session : forall timeout cmds s t t' l, linux_idle s t -> Forall fits (map snd cmds) ->
  target_run tgt t (map snd cmds) = (t', l) ->
  Forall (fun a => is_check_condition (a_status a) (a_driver a) = true -> sense_of (pad 255 (a_sense a)) = Ok tt) l ->
  NoDup (map fst cmds) -> (forall me, In me (map fst cmds) -> ~ In me (map fst (cb_log s))) ->
  exists s', sync_calls (linux_os (A := A) sense_of (honest tgt) timeout) s cmds s'
      (map user_sees (reports linux_expected (map snd cmds) l)) /\ linux_idle s' t'.
Proof. intros timeout. apply session. apply linux_step. Qed.

Lemma solaris_step : forall fails timeout, steps (solaris_os (A := A) sense_of (honest_uscsi tgt fails) timeout) tgt solaris_expected solaris_idle fits64
    (fun a => byte_status a /\ fails a = false /\
      (Z.testbit (a_status a) 1 = true -> sense_of (pad 255 (a_sense a)) = Ok tt)).
Proof.
  intros fails timeout.
  intros s t me c t' a (H1 & H2 & H3 & H4) Hc Ht (Ha1 & Ha2 & Ha3) Hl.
  destruct (solaris_call (A := A) sense_of tgt fails timeout s me c t (s_heap (world s)) (s_buffer (world s)) t' a) as (w & E & Ew); auto; try lia.
  - rewrite <- H4. destruct (world s); reflexivity.
  - eexists. split; [exact E|]. split; [|reflexivity].
    rewrite H2. split; [reflexivity|]. split; [reflexivity|]. split; [reflexivity|exact Ew].
Qed.

Theorem solaris_session : forall fails timeout cmds s t t' l, solaris_idle s t -> Forall fits64 (map snd cmds) ->
  target_run tgt t (map snd cmds) = (t', l) ->
  Forall (fun a => byte_status a /\ fails a = false /\
    (Z.testbit (a_status a) 1 = true -> sense_of (pad 255 (a_sense a)) = Ok tt)) l ->
  NoDup (map fst cmds) -> (forall me, In me (map fst cmds) -> ~ In me (map fst (cb_log s))) ->
  exists s', sync_calls (solaris_os (A := A) sense_of (honest_uscsi tgt fails) timeout) s cmds s'
      (map user_sees (reports solaris_expected (map snd cmds) l)) /\ solaris_idle s' t'.
Proof. intros fails timeout. apply session. apply solaris_step. Qed.

Lemma aix_step : forall timeout use_ctypes, steps (aix_os (A := A) sense_of (honest_sc tgt) timeout use_ctypes) tgt aix_expected aix_idle aix_fits
    (fun a => Z.testbit (a_status a) 1 = true -> sense_of (pad 255 (a_sense a)) = Ok tt).
Proof.
  intros timeout use_ctypes.
  intros s t me c t' a (H1 & H2 & H3 & H4) Hc Ht Ha Hl.
  destruct (aix_call (A := A) sense_of tgt timeout use_ctypes s me c t (x_heap (world s)) (x_objs (world s)) (x_buffer (world s)) t' a) as (w & E & Ew); auto; try lia.
  - rewrite <- H4. destruct (world s); reflexivity.
  - eexists. split; [exact E|]. split; [|reflexivity].
    rewrite H2. split; [reflexivity|]. split; [reflexivity|]. split; [reflexivity|exact Ew].
Qed.

Theorem aix_session : forall timeout use_ctypes cmds s t t' l, aix_idle s t -> Forall aix_fits (map snd cmds) ->
  target_run tgt t (map snd cmds) = (t', l) ->
  Forall (fun a => Z.testbit (a_status a) 1 = true -> sense_of (pad 255 (a_sense a)) = Ok tt) l ->
  NoDup (map fst cmds) -> (forall me, In me (map fst cmds) -> ~ In me (map fst (cb_log s))) ->
  exists s', sync_calls (aix_os (A := A) sense_of (honest_sc tgt) timeout use_ctypes) s cmds s'
      (map user_sees (reports aix_expected (map snd cmds) l)) /\ aix_idle s' t'.
Proof. intros timeout use_ctypes. apply session. apply aix_step. Qed.

Lemma win_step : steps (win_os (A := A) sense_of (honest_win tgt)) tgt win_expected win_idle win_fits
    (fun a => a_host a = 0 /\ (a_status a = 2 -> sense_of (pad 255 (a_sense a)) = Ok tt)).
Proof.
  
  intros s t me c t' a (H1 & H2 & H4) Hc Ht (Ha1 & Ha2) Hl.
  destruct (win_call (A := A) sense_of tgt s me c t (w_heap (world s)) (w_objs (world s)) (incoming_packets (world s)) t' a) as (h' & objs' & E); auto; try lia.
  - rewrite H1. cbn. lia.
  - rewrite H1. reflexivity.
  - rewrite <- H4. destruct (world s); reflexivity.
  - eexists. split; [exact E|]. split; [|reflexivity].
    split; [exact H1|]. split; [exact H2|reflexivity].
Qed.

Theorem win_session : forall cmds s t t' l, win_idle s t -> Forall win_fits (map snd cmds) ->
  target_run tgt t (map snd cmds) = (t', l) ->
  Forall (fun a => a_host a = 0 /\ (a_status a = 2 -> sense_of (pad 255 (a_sense a)) = Ok tt)) l ->
  NoDup (map fst cmds) -> (forall me, In me (map fst cmds) -> ~ In me (map fst (cb_log s))) ->
  exists s', sync_calls (win_os (A := A) sense_of (honest_win tgt)) s cmds s'
      (map user_sees (reports win_expected (map snd cmds) l)) /\ win_idle s' t'.
Proof. apply session. apply win_step. Qed.
End Instances.

(** ** Solaris and AIX with more than one slot *)
Section Second.
Context {T A : Type} (sense_of : bytes -> result unit) (tgt : target T).

Theorem solaris_second : forall fails timeout (s : executer scsicmd (solaris_world T)) me1 me2 c1 c2 t1 t2 a1 a2,
  pending s = [] -> packet_index s = 0 -> 2 <= max_queue_size s -> cb_log s = [] -> me1 <> me2 ->
  fits64 c1 -> fits64 c2 ->
  tgt (s_dev (world s)) (command_of c1) (data_out c1) = (t1, a1) ->
  tgt t1 (command_of c2) (data_out c2) = (t2, a2) ->
  byte_status a1 -> byte_status a2 -> fails a1 = false -> fails a2 = false ->
  (Z.testbit (a_status a1) 1 = true -> sense_of (pad 255 (a_sense a1)) = Ok tt) ->
  (Z.testbit (a_status a2) 1 = true -> sense_of (pad 255 (a_sense a2)) = Ok tt) ->
  exists s', sync_calls (solaris_os (A := A) sense_of (honest_uscsi tgt fails) timeout) s [(me1, c1); (me2, c2)] s'
      [user_sees (solaris_expected c1 a1); Threw (if a_status a2 =? 0 then EAttribute else EAsiInternal)] /\
    (exists r, dict_get 1 (pending s') = Some (r, Some me2)) /\ ~ In me2 (map fst (cb_log s')) /\ s_dev (world s') = t2.
Proof.
  intros fails timeout s me1 me2 c1 c2 t1 t2 a1 a2 H1 H2 H3 H4 H5 F1 F2 E1 E2 B1 B2 G1 G2 S1 S2.
  destruct (solaris_call (A := A) sense_of tgt fails timeout s me1 c1 (s_dev (world s)) (s_heap (world s)) (s_buffer (world s)) t1 a1)
    as (w & X & Xw); auto; try lia.
  { rewrite H4. auto. } { destruct (world s); reflexivity. }
  rewrite (Z.mod_small 1) in X by lia. rewrite H4 in X. cbn [app] in X.
  match type of X with call_evaluates _ _ ?y _ => set (s1 := y) in * end.
  destruct (solaris_other_packet (A := A) sense_of tgt fails timeout s1 me2 c2 t1 (s_heap w) (s_buffer w) t2 a2)
    as (s2 & Y & Yp & Yl & Yd); auto; try (cbn; lia).
  { cbn. rewrite <- Xw. destruct w; reflexivity. }
  exists s2. split.
  - econstructor; [apply sync_user_sees; exact X|]. econstructor; [|constructor].
    apply sync_wait_raise. exact Y.
  - split; [exact Yp|]. split; [|exact Yd]. rewrite Yl. cbn. intros [Z0|[]]. contradiction.
Qed.

Theorem aix_second : forall timeout use_ctypes (s : executer passthru (aix_world T)) me1 me2 c1 c2 t1 t2 a1 a2,
  pending s = [] -> packet_index s = 0 -> 2 <= max_queue_size s -> cb_log s = [] -> me1 <> me2 ->
  aix_fits c1 -> aix_fits c2 ->
  tgt (x_dev (world s)) (command_of c1) (data_out c1) = (t1, a1) ->
  tgt t1 (command_of c2) (data_out c2) = (t2, a2) ->
  (Z.testbit (a_status a1) 1 = true -> sense_of (pad 255 (a_sense a1)) = Ok tt) ->
  (Z.testbit (a_status a2) 1 = true -> sense_of (pad 255 (a_sense a2)) = Ok tt) ->
  exists s', sync_calls (aix_os (A := A) sense_of (honest_sc tgt) timeout use_ctypes) s [(me1, c1); (me2, c2)] s'
      [user_sees (aix_expected c1 a1);
       Threw (if (a_status a2 =? 0) && (a_host a2 =? 0) then EAttribute else EAsiInternal)] /\
    (exists r, dict_get 1 (pending s') = Some (r, Some me2)) /\ ~ In me2 (map fst (cb_log s')) /\ x_dev (world s') = t2.
Proof.
  intros timeout use_ctypes s me1 me2 c1 c2 t1 t2 a1 a2 H1 H2 H3 H4 H5 F1 F2 E1 E2 S1 S2.
  destruct (aix_call (A := A) sense_of tgt timeout use_ctypes s me1 c1 (x_dev (world s)) (x_heap (world s)) (x_objs (world s)) (x_buffer (world s)) t1 a1)
    as (w & X & Xw); auto; try lia.
  { rewrite H4. auto. } { destruct (world s); reflexivity. }
  rewrite (Z.mod_small 1) in X by lia. rewrite H4 in X. cbn [app] in X.
  match type of X with call_evaluates _ _ ?y _ => set (s1 := y) in * end.
  destruct (aix_other_packet (A := A) sense_of tgt timeout use_ctypes s1 me2 c2 t1 (x_heap w) (x_objs w) (x_buffer w) t2 a2)
    as (s2 & Y & Yp & Yl & Yd); auto; try (cbn; lia).
  { cbn. rewrite <- Xw. destruct w; reflexivity. }
  exists s2. split.
  - econstructor; [apply sync_user_sees; exact X|]. econstructor; [|constructor].
    apply sync_wait_raise. exact Y.
  - split; [exact Yp|]. split; [|exact Yd]. rewrite Yl. cbn. intros [Z0|[]]. contradiction.
Qed.
End Second.
