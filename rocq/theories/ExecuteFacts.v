(** Lemmas on execute() and on sessions of commands. *)
From Coq Require Import String ZArith List Bool Lia.
From Verif Require Import Base BaseFacts Gen SpecGen GenFacts Executer SpecCall ExecFacts ExecGenFacts ExecStepFacts
  OsCommon OsLinux OsSolaris OsAix OsWin32 SpecSg SpecDrivers SpecSession LinuxFacts SessionFacts
  Instruct Command SpecDevice SpecCdb CdbAllFacts CdbPropFacts SpecExecute.
Import ListNotations.
Local Open Scope Z_scope.

Lemma yielded_not_exn : forall H p, not_exn (@yielded_value H p).
Proof. intros H p e. destruct p; discriminate. Qed.

Lemma gen_end_stops : forall S D (i : input D) (s : S), (exists v, i = Send v) -> resume gen_end i s = (s, Stop).
Proof. intros S D i s [v ->]. reflexivity. Qed.

Section Execute.
Context {R W H : Type} (os : os_layer R W (wire H pyval) scsi_command).

(** call yields before it ends, so how it was started does not matter. *)
Lemma call_as_callee : forall me c (s s' : executer R W) o,
  call_evaluates (call os me c) s s' o -> evaluates (call os me c) (Send VNone) false s s' o.
Proof.
  intros me c s s' o E. unfold call_evaluates in E. inversion E; subst; clear E;
    cbn in *; try discriminate.
  - eapply ev_call; eauto.
  - eapply ev_call_raise; eauto.
Qed.

Lemma execute_refused : forall me o e (s : executer R W), request o = Err e ->
  sync_wait_ends (execute os me o) s s (Threw e).
Proof.
  intros me o e s E. apply sync_wait_raise. apply ev_raise. cbn. rewrite E. reflexivity.
Qed.

Lemma execute_raises : forall me o c e (s s' : executer R W), request o = Ok c ->
  call_evaluates (call os me c) s s' (CallRaises e) -> sync_wait_ends (execute os me o) s s' (Threw e).
Proof.
  intros me o c e s s' E C. apply sync_wait_raise. eapply ev_call_raise.
  - cbn. rewrite E. reflexivity.
  - apply call_as_callee. exact C.
  - apply ev_raise. reflexivity.
Qed.

Lemma execute_result : forall expected me o c a (s s' : executer R W), request o = Ok c ->
  call_evaluates (call os me c) s s' (outcome_of (expected c a)) ->
  sync_wait_ends (execute os me o) s s' (shown (result_of expected o c a)).
Proof.
  intros expected me o c a s s' E C. unfold result_of.
  destruct (expected c a) as [d|e]; cbn in C; [|eapply execute_raises; eauto].
  assert (X : exists v, result_datagram v = Some d /\ call_evaluates (call os me c) s s' (CallReturns v true)).
  { destruct d; eexists; (split; [|exact C]); reflexivity. }
  destruct X as [v [V X]]. apply call_as_callee in X.
  destruct (o_finish o (o_attrs o) d) as [p|e] eqn:F; cbn.
  - apply sync_wait_value. eapply ev_call; [cbn; rewrite E; reflexivity|exact X|].
    eapply ev_value; [cbn; rewrite V, F; reflexivity|apply yielded_not_exn|].
    apply ev_finish; [reflexivity|apply yielded_not_exn].
  - apply sync_wait_raise. eapply ev_call; [cbn; rewrite E; reflexivity|exact X|].
    apply ev_raise. cbn. rewrite V, F. reflexivity.
Qed.

Context {T : Type} (tgt : target T) (expected : scsi_command -> answer -> resp).
Context (Idle : executer R W -> T -> Prop) (okc : scsi_command -> Prop) (oka : answer -> Prop).
Context (step : steps os tgt expected Idle okc oka).

Lemma run_sessions : forall objs s t t' l, Idle s t ->
  device_session tgt expected okc oka t (map snd objs) t' l ->
  NoDup (map fst objs) -> (forall me, In me (map fst objs) -> ~ In me (map fst (cb_log s))) ->
  exists s', user_session os s objs s' (map shown l) /\ Idle s' t'.
Proof.
  induction objs as [|[me r] objs IH]; intros s t t' l Hi Hd Hn Hf; cbn in Hd, Hn.
  - inversion Hd; subst. exists s. split; [constructor|exact Hi].
  - inversion Hn as [|? ? Hn1 Hn2]; subst. inversion Hd as [|? ? ? ? ? Q|? ? ? ? ? ? Q1 Q|? ? ? ? ? ? ? ? Q1 Q2 Q3 Q4 Q]; subst.
    + destruct (IH s t t' _ Hi Q Hn2) as (s2 & F1 & F2); [intros; apply Hf; cbn; auto|].
      exists s2. split; [|exact F2]. cbn. econstructor; [constructor|exact F1].
    + destruct (IH s t t' _ Hi Q Hn2) as (s2 & F1 & F2); [intros; apply Hf; cbn; auto|].
      exists s2. split; [|exact F2]. cbn. econstructor; [constructor; apply execute_refused; eassumption|exact F1].
    + destruct (step s t me _ _ _ Hi Q2 Q3 Q4) as (s1 & E1 & E2 & E3); [apply Hf; cbn; auto|].
      destruct (IH s1 _ t' _ E2 Q Hn2) as (s2 & F1 & F2).
      * intros me' Hin. rewrite E3, map_app, in_app_iff. intros [X|X].
        -- apply (Hf me'); cbn; auto.
        -- cbn in X. destruct X as [X|[]]. subst me'. contradiction.
      * exists s2. split; [|exact F2]. cbn. econstructor; [|exact F1].
        constructor. eapply execute_result; eassumption.
Qed.
End Execute.

(** ** The commands of the library *)

Lemma issued_cases : forall c, proper c ->
  (arguments_fit c -> exists o k, constructed c = Ok o /\ request o = Ok k /\ issued c = Ok k) /\
  (~ arguments_fit c -> (exists e, constructed c = Err e) \/ exists o e, constructed c = Ok o /\ request o = Err e).
Proof.
  intros c P. pose proof (issued_spec c P) as I. unfold issued in *.
  destruct (constructed c) as [o|e]; cbn [bind] in *.
  - destruct (request o) as [k|e] eqn:Q; split; intro F.
    + exists o, k. auto.
    + destruct I. contradiction.
    + contradiction.
    + right. eauto.
  - split; intro F; [contradiction|]. left. eauto.
Qed.

Lemma interpret_short : forall k op, interpret k = Some op -> zlen k <= 16.
Proof.
  intros k op. unfold interpret. destruct (Z.eqb_spec (zlen k) (cdb_length (byte_at 0 k))) as [E|]; [|discriminate].
  intros _. rewrite E. unfold cdb_length.
  destruct (byte_at 0 k / 32) as [|p|p]; try lia. do 3 (destruct p as [p|p|]; try lia).
Qed.

(** ** Errors of the OS *)
Section Failures.
Context {D : Type} (sense_of : bytes -> result unit) (drv : sg_driver D) (timeout : Z).
Notation ex := (executer sgio (linux_world D)).
Notation os := (linux_os (A := pyval) sense_of drv timeout).

Lemma linux_send_fails : forall (s : ex) me o c h0 r h d e, request o = Ok c ->
  zlen (pending s) < max_queue_size s -> dict_get (packet_index s) (pending s) = None ->
  sgio_create (packet_index s) c timeout (l_heap (world s)) = (h0, r) ->
  sg_write drv (hdr r) h0 (l_dev (world s)) = (h, d, Err e) ->
  exists s', sync_wait_ends (execute os me o) s s' (Threw e) /\ pending s' = pending s /\ cb_log s' = cb_log s.
Proof.
  intros s me o c h0 r h d e Q Hroom Hfree Hc Hw.
  destruct (call_send_error os c me s r (LinuxWorld h0 (l_dev (world s)) (l_buffer (world s)))
    (LinuxWorld h d (l_buffer (world s))) e) as (s' & E & P & L); auto.
  - cbn [os_prepare_to_send linux_os]. unfold linux_prepare. change (l_heap (world (at_prepare s))) with (l_heap (world s)). rewrite Hc. reflexivity.
  - apply ev_raise. cbn. rewrite Hw. reflexivity.
  - exists s'. split; [|auto]. eapply execute_raises; eauto.
Qed.

Lemma linux_receive_fails : forall (s : ex) me o c h0 r h d n h1 d1 e, request o = Ok c ->
  zlen (pending s) < max_queue_size s -> ~ In me (map fst (cb_log s)) ->
  sgio_create (packet_index s) c timeout (l_heap (world s)) = (h0, r) ->
  sg_write drv (hdr r) h0 (l_dev (world s)) = (h, d, Ok n) ->
  sg_read drv h d = (h1, d1, Err e) ->
  exists s', sync_wait_ends (execute os me o) s s' (Threw e) /\
    dict_get (packet_index s) (pending s') = Some (r, Some me) /\ cb_log s' = cb_log s.
Proof.
  intros s me o c h0 r h d n h1 d1 e Q Hroom Hl Hc Hw Hr.
  destruct (call_receive_error os c me s r (LinuxWorld h0 (l_dev (world s)) (l_buffer (world s)))
    (LinuxWorld h d (l_buffer (world s))) (VData (DInt n)) true (LinuxWorld h1 d1 (l_buffer (world s))) e) as (s' & E & P & L); auto.
  - cbn [os_prepare_to_send linux_os]. unfold linux_prepare. change (l_heap (world (at_prepare s))) with (l_heap (world s)). rewrite Hc. reflexivity.
  - eapply ev_value; [cbn; rewrite Hw; reflexivity|intros x; discriminate|].
    apply ev_finish; [reflexivity|intros x; discriminate].
  - apply ev_raise. cbn. rewrite Hr. reflexivity.
  - exists s'. split; [|auto]. eapply execute_raises; eauto.
Qed.
End Failures.

(** ** One command of the library on Linux *)
Section Library.
Context {T : Type} (sense_of : bytes -> result unit) (tgt : target T) (timeout : Z).
Notation os := (linux_os (A := pyval) sense_of (honest tgt) timeout).

Lemma issued_object : forall c k, issued c = Ok k -> exists o, constructed c = Ok o /\ request o = Ok k.
Proof.
  intros c k J. unfold issued in J. destruct (constructed c) as [o|e]; [|discriminate J]. exists o. auto.
Qed.

Lemma library_command : forall s t me c k t' a, linux_idle s t -> ~ In me (map fst (cb_log s)) ->
  proper c -> issued c = Ok k -> fits k -> tgt t (command_of k) (data_out k) = (t', a) -> linux_answer sense_of a ->
  interpret (command_of k) = Some (meaning c) /\
  exists s', user_runs os me s (constructed c) s'
      (shown match linux_expected k a with RespExn e => Err e | RespData d => yields (constructed c) d end) /\
    linux_idle s' t'.
Proof.
  intros s t me c k t' a Hi Hl P J K G A. pose proof (issued_spec c P) as S. rewrite J in S.
  split; [tauto|]. destruct (issued_object c k J) as (o & C & Q). rewrite C.
  destruct (linux_step (A := pyval) sense_of tgt timeout s t me k t' a Hi K G A Hl) as (s1 & E1 & E2 & _).
  exists s1. split; [|exact E2]. constructor.
  change (sync_wait_ends (execute os me o) s s1 (shown (result_of linux_expected o k a))).
  eapply execute_result; eauto.
Qed.

Lemma library_refused : forall s me c e, issued c = Err e -> proper c ->
  ~ arguments_fit c /\ user_runs os me s (constructed c) s (Threw e).
Proof.
  intros s me c e J P. pose proof (issued_spec c P) as S. rewrite J in S. split; [exact S|].
  unfold issued in J. destruct (constructed c) as [o|e']; cbn [bind] in J.
  - constructor. apply execute_refused. exact J.
  - injection J as ->. constructor.
Qed.
End Library.

(** ** Sessions of commands on the four systems *)
Section Sessions.
Context {T : Type} (sense_of : bytes -> result unit) (tgt : target T).

Lemma linux_commands : forall timeout objs s t t' l, linux_idle s t ->
  device_session tgt linux_expected fits (linux_answer sense_of) t (map snd objs) t' l ->
  NoDup (map fst objs) -> (forall me, In me (map fst objs) -> ~ In me (map fst (cb_log s))) ->
  exists s', user_session (linux_os sense_of (honest tgt) timeout) s objs s' (map shown l) /\ linux_idle s' t'.
Proof. intros timeout. eapply run_sessions. apply linux_step. Qed.
Lemma solaris_commands : forall fails timeout objs s t t' l, solaris_idle s t ->
  device_session tgt solaris_expected fits64 (fun a => byte_status a /\ fails a = false /\
    (Z.testbit (a_status a) 1 = true -> sense_of (pad 255 (a_sense a)) = Ok tt)) t (map snd objs) t' l ->
  NoDup (map fst objs) -> (forall me, In me (map fst objs) -> ~ In me (map fst (cb_log s))) ->
  exists s', user_session (solaris_os sense_of (honest_uscsi tgt fails) timeout) s objs s' (map shown l) /\ solaris_idle s' t'.
Proof. intros fails timeout. eapply run_sessions. apply solaris_step. Qed.
Lemma aix_commands : forall timeout use_ctypes objs s t t' l, aix_idle s t ->
  device_session tgt aix_expected aix_fits (fun a =>
    Z.testbit (a_status a) 1 = true -> sense_of (pad 255 (a_sense a)) = Ok tt) t (map snd objs) t' l ->
  NoDup (map fst objs) -> (forall me, In me (map fst objs) -> ~ In me (map fst (cb_log s))) ->
  exists s', user_session (aix_os sense_of (honest_sc tgt) timeout use_ctypes) s objs s' (map shown l) /\ aix_idle s' t'.
Proof. intros timeout use_ctypes. eapply run_sessions. apply aix_step. Qed.
Lemma win_commands : forall objs s t t' l, win_idle s t ->
  device_session tgt win_expected win_fits (fun a => a_host a = 0 /\
    (a_status a = 2 -> sense_of (pad 255 (a_sense a)) = Ok tt)) t (map snd objs) t' l ->
  NoDup (map fst objs) -> (forall me, In me (map fst objs) -> ~ In me (map fst (cb_log s))) ->
  exists s', user_session (win_os sense_of (honest_win tgt)) s objs s' (map shown l) /\ win_idle s' t'.
Proof. eapply run_sessions. apply win_step. Qed.
End Sessions.
