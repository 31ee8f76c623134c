(** Lemmas on the library with its own sense parser on the four systems. *)
From Coq Require Import String ZArith List Bool Lia.
From Verif Require Import Base BaseFacts Gen SpecGen GenFacts Executer SpecCall ExecFacts
  OsCommon OsLinux OsSolaris OsAix OsWin32 SpecSg SpecDrivers SpecSession LinuxFacts SessionFacts
  Instruct Command SpecDevice SpecCdb CdbAllFacts SpecExecute ExecuteFacts Sense SpecSense SenseFacts SpecPortable.
Import ListNotations.
Local Open Scope Z_scope.

Lemma cdb_at_most_16 : forall cdb m, interpret cdb = Some m -> zlen cdb <= 16.
Proof.
  intros cdb m H. unfold interpret in H. destruct (zlen cdb =? cdb_length (byte_at 0 cdb)) eqn:E; [|discriminate].
  apply Z.eqb_eq in E. rewrite E. unfold cdb_length. destruct (byte_at 0 cdb / 32) as [|p|p]; try lia.
  destruct p as [p|p|]; try lia; destruct p as [p|p|]; try lia; destruct p; lia.
Qed.

Section One.
Context {R W H T : Type} (os : os_layer R W (wire H pyval) scsi_command) (tgt : target T).
Context (expected : scsi_command -> answer -> resp).
Context (Idle : executer R W -> T -> Prop) (okc : scsi_command -> Prop) (oka : answer -> Prop).
Context (step : steps os tgt expected Idle okc oka).

Lemma library_one : (forall k, zlen (command_of k) <= 16 -> moderate k -> okc k) ->
  forall s t me c k t' a, Idle s t -> ~ In me (map fst (cb_log s)) ->
  proper c -> issued c = Ok k -> moderate k -> tgt t (command_of k) (data_out k) = (t', a) -> oka a ->
  interpret (command_of k) = Some (meaning c) /\
  exists s', user_runs os me s (constructed c) s'
      (shown match expected k a with RespExn e => Err e | RespData d => yields (constructed c) d end) /\
    Idle s' t'.
Proof.
  intros Hk s t me c k t' a Hi Hl P J K G A. pose proof (issued_spec c P) as S. rewrite J in S. destruct S as [_ S].
  split; auto. destruct (issued_object c k J) as (o & C & Q). rewrite C.
  assert (O : okc k) by (apply Hk; auto; eapply cdb_at_most_16; eauto).
  destruct (step s t me k t' a Hi O G A Hl) as (s1 & E1 & E2 & _).
  exists s1. split; [|exact E2]. constructor.
  change (sync_wait_ends (execute os me o) s s1 (shown (result_of expected o k a))).
  eapply execute_result; eauto.
Qed.

Lemma plain_carried : (forall k, zlen (command_of k) <= 16 -> moderate k -> okc k) ->
  (forall c a, plain c a -> oka a) ->
  (forall c a, plain c a -> expected c a =
     if a_status a =? 0 then RespData (received c a) else RespExn (EAsiCheckCondition (pad 255 (a_sense a)))) ->
  forall t objs t' l, plain_session tgt t objs t' l -> device_session tgt expected okc oka t objs t' l.
Proof.
  intros Hk Ha He t objs t' l D. induction D.
  - constructor.
  - constructor; auto.
  - constructor; auto.
  - assert (E : plain_result o c a = result_of expected o c a).
    { unfold plain_result, result_of. rewrite He by auto. destruct (a_status a =? 0); reflexivity. }
    rewrite E. eapply ds_done; eauto.
Qed.
End One.

Lemma pad_enough : forall n data, 0 < n -> n <= zlen data -> pad (Z.to_nat n) data = firstn (Z.to_nat n) data.
Proof.
  intros n data H0 H. unfold pad. unfold zlen in H.
  replace (Z.to_nat n - length data)%nat with 0%nat by lia. cbn [zeros repeat]. apply app_nil_r.
Qed.

Lemma wanted_received : forall c a, enough c a -> data_wanted c (a_data a) = received c a.
Proof.
  intros [b n|b d] a E; cbn in *; auto. destruct (Z.ltb_spec 0 n); auto. rewrite pad_enough by auto. reflexivity.
Qed.

Lemma win_received : forall c a, enough c a -> win_data c (a_data a) = received c a.
Proof.
  intros [b n|b d] a E; cbn in *; auto. destruct (Z.ltb_spec 0 n); auto.
  replace (0 <? zlen (a_data a)) with true by (symmetry; apply Z.ltb_lt; lia). reflexivity.
Qed.

Lemma linux_plain : forall c a, plain c a -> linux_expected c a =
  if a_status a =? 0 then RespData (received c a) else RespExn (EAsiCheckCondition (pad 255 (a_sense a))).
Proof.
  intros c a [H0 [(S & D & E)|(S & D & E)]]; unfold linux_expected; rewrite S.
  - rewrite D, H0. cbn. rewrite wanted_received by auto. reflexivity.
  - reflexivity.
Qed.

Lemma solaris_plain : forall c a, plain c a -> solaris_expected c a =
  if a_status a =? 0 then RespData (received c a) else RespExn (EAsiCheckCondition (pad 255 (a_sense a))).
Proof.
  intros c a [H0 [(S & D & E)|(S & D & E)]]; unfold solaris_expected; rewrite S.
  - cbn. rewrite wanted_received by auto. reflexivity.
  - reflexivity.
Qed.

Lemma aix_plain : forall c a, plain c a -> aix_expected c a =
  if a_status a =? 0 then RespData (received c a) else RespExn (EAsiCheckCondition (pad 255 (a_sense a))).
Proof.
  intros c a [H0 [(S & D & E)|(S & D & E)]]; unfold aix_expected; rewrite S, ?H0.
  - cbn. rewrite wanted_received by auto. reflexivity.
  - reflexivity.
Qed.

Lemma win_plain : forall c a, plain c a -> win_expected c a =
  if a_status a =? 0 then RespData (received c a) else RespExn (EAsiCheckCondition (pad 255 (a_sense a))).
Proof.
  intros c a [H0 [(S & D & E)|(S & D & E)]]; unfold win_expected; rewrite S.
  - cbn. rewrite win_received by auto. reflexivity.
  - reflexivity.
Qed.

Lemma fits_linux : forall k, zlen (command_of k) <= 16 -> moderate k -> fits k.
Proof. intros k H M. split; [lia|exact M]. Qed.
Lemma fits_solaris : forall k, zlen (command_of k) <= 16 -> moderate k -> fits64 k.
Proof. intros k H M. split; [lia|]. destruct k; cbn [moderate] in M; lia. Qed.
Lemma fits_aix : forall k, zlen (command_of k) <= 16 -> moderate k -> aix_fits k.
Proof. intros k H M. split; [lia|]. destruct k; cbn [moderate] in M; lia. Qed.
Lemma fits_win : forall k, zlen (command_of k) <= 16 -> moderate k -> win_fits k.
Proof. intros k H M. split; [lia|exact M]. Qed.

Section Library.
Context {T : Type} (tgt : target T).

Lemma library_linux : forall timeout s t me c k t' a, linux_idle s t -> ~ In me (map fst (cb_log s)) ->
  proper c -> issued c = Ok k -> moderate k -> tgt t (command_of k) (data_out k) = (t', a) -> conforming_sense (a_sense a) ->
  interpret (command_of k) = Some (meaning c) /\
  exists s', user_runs (linux_os parse_sense (honest tgt) timeout) me s (constructed c) s'
      (shown match linux_expected k a with RespExn e => Err e | RespData d => yields (constructed c) d end) /\
    linux_idle s' t'.
Proof.
  intros timeout s t me c k t' a Hi Hl P J M G A.
  eapply (library_one (linux_os (A := pyval) parse_sense (honest tgt) timeout)); eauto using linux_step, fits_linux.
  intros _. apply conforming_parses. auto.
Qed.

Lemma library_solaris : forall fails timeout s t me c k t' a, solaris_idle s t -> ~ In me (map fst (cb_log s)) ->
  proper c -> issued c = Ok k -> moderate k -> tgt t (command_of k) (data_out k) = (t', a) -> conforming_sense (a_sense a) ->
  byte_status a -> fails a = false ->
  interpret (command_of k) = Some (meaning c) /\
  exists s', user_runs (solaris_os parse_sense (honest_uscsi tgt fails) timeout) me s (constructed c) s'
      (shown match solaris_expected k a with RespExn e => Err e | RespData d => yields (constructed c) d end) /\
    solaris_idle s' t'.
Proof.
  intros fails timeout s t me c k t' a Hi Hl P J M G A B F.
  eapply (library_one (solaris_os (A := pyval) parse_sense (honest_uscsi tgt fails) timeout)); eauto using solaris_step, fits_solaris.
  repeat split; auto; try apply B. intros _. apply conforming_parses. auto.
Qed.

Lemma library_aix : forall timeout use_ctypes s t me c k t' a, aix_idle s t -> ~ In me (map fst (cb_log s)) ->
  proper c -> issued c = Ok k -> moderate k -> tgt t (command_of k) (data_out k) = (t', a) -> conforming_sense (a_sense a) ->
  interpret (command_of k) = Some (meaning c) /\
  exists s', user_runs (aix_os parse_sense (honest_sc tgt) timeout use_ctypes) me s (constructed c) s'
      (shown match aix_expected k a with RespExn e => Err e | RespData d => yields (constructed c) d end) /\
    aix_idle s' t'.
Proof.
  intros timeout use_ctypes s t me c k t' a Hi Hl P J M G A.
  eapply (library_one (aix_os (A := pyval) parse_sense (honest_sc tgt) timeout use_ctypes)); eauto using aix_step, fits_aix.
  intros _. apply conforming_parses. auto.
Qed.

Lemma library_win : forall s t me c k t' a, win_idle s t -> ~ In me (map fst (cb_log s)) ->
  proper c -> issued c = Ok k -> moderate k -> tgt t (command_of k) (data_out k) = (t', a) -> conforming_sense (a_sense a) ->
  a_host a = 0 ->
  interpret (command_of k) = Some (meaning c) /\
  exists s', user_runs (win_os parse_sense (honest_win tgt)) me s (constructed c) s'
      (shown match win_expected k a with RespExn e => Err e | RespData d => yields (constructed c) d end) /\
    win_idle s' t'.
Proof.
  intros s t me c k t' a Hi Hl P J M G A B.
  eapply (library_one (win_os (A := pyval) parse_sense (honest_win tgt))); eauto using win_step, fits_win.
  split; auto. intros _. apply conforming_parses. auto.
Qed.

Lemma refused_anywhere : forall R W H (os : os_layer R W (wire H pyval) scsi_command) s me c e, issued c = Err e -> proper c ->
  ~ arguments_fit c /\ user_runs os me s (constructed c) s (Threw e).
Proof.
  intros R W H os s me c e J P. pose proof (issued_spec c P) as S. rewrite J in S. split; [exact S|].
  unfold issued in J. destruct (constructed c) as [o|e']; cbn [bind] in J.
  - constructor. apply execute_refused. exact J.
  - injection J as ->. constructor.
Qed.

Lemma plain_sense : forall c a, plain c a -> a_status a <> 0 -> parse_sense (pad 255 (a_sense a)) = Ok tt.
Proof. intros c a [_ [(S & _)|(_ & _ & C)]] N; [contradiction|]. apply conforming_parses. auto. Qed.

Lemma plain_linux_ok : forall c a, plain c a -> is_check_condition (a_status a) (a_driver a) = true ->
  parse_sense (pad 255 (a_sense a)) = Ok tt.
Proof.
  intros c a P H. eapply plain_sense; eauto. destruct P as [_ [(S & D & _)|(S & _)]]; [|lia]. rewrite S, D in H. discriminate.
Qed.

Lemma plain_bit_ok : forall c a, plain c a -> Z.testbit (a_status a) 1 = true -> parse_sense (pad 255 (a_sense a)) = Ok tt.
Proof. intros c a P H. eapply plain_sense; eauto. intros S. rewrite S in H. discriminate. Qed.

Lemma portable : forall fails timeout use_ctypes objs t t' l,
  (forall c a, plain c a -> fails a = false) ->
  plain_session tgt t (map snd objs) t' l -> NoDup (map fst objs) ->
  (forall s, linux_idle s t -> (forall me, In me (map fst objs) -> ~ In me (map fst (cb_log s))) ->
   exists s', user_session (linux_os parse_sense (honest tgt) timeout) s objs s' (map shown l) /\ linux_idle s' t') /\
  (forall s, solaris_idle s t -> (forall me, In me (map fst objs) -> ~ In me (map fst (cb_log s))) ->
   exists s', user_session (solaris_os parse_sense (honest_uscsi tgt fails) timeout) s objs s' (map shown l) /\ solaris_idle s' t') /\
  (forall s, aix_idle s t -> (forall me, In me (map fst objs) -> ~ In me (map fst (cb_log s))) ->
   exists s', user_session (aix_os parse_sense (honest_sc tgt) timeout use_ctypes) s objs s' (map shown l) /\ aix_idle s' t') /\
  (forall s, win_idle s t -> (forall me, In me (map fst objs) -> ~ In me (map fst (cb_log s))) ->
   exists s', user_session (win_os parse_sense (honest_win tgt)) s objs s' (map shown l) /\ win_idle s' t').
Proof.
  intros fails timeout use_ctypes objs t t' l Hf P N. split; [|split; [|split]]; intros s Hi Hl.
  - eapply linux_commands; eauto. eapply plain_carried; eauto using fits_linux, linux_plain.
    intros c a Q. unfold linux_answer. eapply plain_linux_ok; eauto.
  - eapply solaris_commands; eauto. eapply plain_carried; eauto using fits_solaris, solaris_plain.
    intros c a Q. split; [|split; [eauto|eapply plain_bit_ok; eauto]].
    destruct Q as [_ [(S & _)|(S & _)]]; unfold byte_status; rewrite S; lia.
  - eapply aix_commands; eauto. eapply plain_carried; eauto using fits_aix, aix_plain.
    intros c a Q. eapply plain_bit_ok; eauto.
  - eapply win_commands; eauto. eapply plain_carried; eauto using fits_win, win_plain.
    intros c a Q. split; [apply Q|]. intros S. eapply plain_sense; eauto. lia.
Qed.
End Library.
