(** Lemmas on coroutines that use several executers. *)
From Coq Require Import String ZArith List Bool Lia PeanoNat.
From Verif Require Import Base BaseFacts Gen SpecGen GenFacts Executer SpecCall ExecFacts ExecStepFacts
  OsCommon OsLinux OsSolaris OsAix OsWin32 SpecSg SpecDrivers SpecSession LinuxFacts SessionFacts WinFacts
  Instruct Command CdbPrimary SpecDevice SpecCdb CdbPrimaryFacts CdbResponseFacts CdbAllFacts CdbPropFacts SpecExecute ExecuteFacts
  Sense SpecSense SenseFacts SpecPortable PortableFacts SpecReserve ReserveFacts SpecAdaptive AdaptiveFacts SpecAsync AsyncFacts.
From Verif Require SolarisFacts AixFacts.
From Verif Require Import SpecClone SpecShared DiskFacts SharedFacts CloneFacts SpecPaths.
Import ListNotations.
Local Open Scope string_scope.
Local Open Scope list_scope.
Local Open Scope Z_scope.

(** * A lost path *)

Lemma solaris_lost : forall T (tgt : target T) fails timeout s t me c t' a, solaris_idle s t -> fits64 c ->
  tgt t (command_of c) (data_out c) = (t', a) -> fails a = true ->
  exists s', call_evaluates (call (solaris_os (A := pyval) parse_sense (honest_uscsi tgt fails) timeout) me c) s s' (CallRaises (EIO 5)) /\
    solaris_idle s' t'.
Proof.
  intros T tgt fails timeout s t me c t' a (P & M & I & W) F E G.
  assert (Hw : world s = SolarisWorld (s_heap (world s)) t (s_buffer (world s))) by (rewrite <- W; destruct (world s); reflexivity).
  destruct (SolarisFacts.solaris_step (A := pyval) parse_sense tgt fails timeout s me c t _ _ t' a Hw F E) as (r & h1 & w & _ & Hpr & Hww & _ & Herr).
  specialize (Herr G).
  eexists. split; [refine (call_send_error_at _ c me s r _ _ _ _ Hpr Herr _)|].
  - rewrite P, M. cbn. lia.
  - rewrite P. reflexivity.
  - repeat split; cbn; auto. rewrite M. apply Z.mod_1_r.
Qed.

Lemma win_lost : forall T (tgt : target T) s t me c t' a, win_idle s t -> win_fits c ->
  tgt t (command_of c) (data_out c) = (t', a) -> a_host a <> 0 ->
  exists s', call_evaluates (call (win_os (A := pyval) parse_sense (honest_win tgt)) me c) s s' (CallRaises EAsiOS) /\ win_idle s' t'.
Proof.
  intros T tgt s t me c t' a (P & M & W) F E G.
  destruct (spt_block c (w_heap (world s)) F) as (h1 & q & b & Hcr & _).
  destruct (spt_described _ _ _ _ _ Hcr F) as (E1 & E2 & _).
  pose proof (win_prepared s c _ _ _ _ eq_refl Hcr) as Hpr.
  set (r := Spt (length (w_objs (world s))) (packet_index s) b) in *.
  set (w0 := WinWorld h1 (w_objs (world s) ++ [q]) (w_dev (world s)) (incoming_packets (world s))) in *.
  pose proof (win_send_spec (A := pyval) parse_sense (honest_win tgt) (with_world (at_send s r (Some me)) w0) r q
    h1 t' q None (AixFacts.nth_new _ _ _)) as X.
  cbv beta iota in X.
  match type of X with ?P -> _ => assert (HP : P) end.
  { cbn [world with_world w_heap w_dev w0]. cbn [dev_control honest_win]. unfold honest_control, spt_run.
    rewrite E1, E2, W, E. destruct (Z.eqb_spec (a_host a) 0); [contradiction|reflexivity]. }
  specialize (X HP).
  eexists. split; [refine (call_send_error_at (win_os (A := pyval) parse_sense (honest_win tgt)) c me s r w0 _ _ _ Hpr X _)|].
  - rewrite P. cbn. lia.
  - rewrite P. reflexivity.
  - repeat split; cbn; auto.
Qed.

(** * One command on one path *)

Definition answered (padded : bool) (loss : exn) (k : scsi_command) (a : answer) : resp :=
  if a_host a =? 0 then nice_expected padded k a else RespExn loss.

Definition reaches {R W O T} (os : os_layer R W O scsi_command) (tgt : target T) (Idle : executer R W -> T -> Prop) (padded : bool) (loss : exn) : Prop :=
  forall s t k t1 a, Idle s t -> zlen (command_of k) <= 16 -> moderate k -> tgt t (command_of k) (data_out k) = (t1, a) ->
  ordinary a \/ gone a ->
  exists s1, call_evaluates (call os (fresh s) k) s s1 (outcome_of (answered padded loss k a)) /\ Idle s1 t1.

Lemma paths_reach : forall T (sys : system T) loss, raises_when_gone sys loss ->
  forall tgt, reaches (os_of sys tgt) tgt (idle sys) (pads sys) loss.
Proof.
  intros T sys loss L tgt s t k t1 a Hi Z M E A. pose proof (fresh_new _ _ s) as N. unfold answered.
  destruct L as [timeout|fails timeout Hf Hg|timeout use_ctypes|];
    cbn [pads os_of idle linux_system solaris_system aix_system win_system mem req wired] in *.
  - destruct (linux_step (A := pyval) parse_sense tgt timeout s t (fresh s) k t1 a Hi) as (s1 & X & Y & _); auto using fits_linux.
    + intro C. destruct A as [(_ & Hc & _)|(_ & G1 & G2)]; [apply conforming_parses; exact Hc|]. rewrite G1, G2 in C. discriminate C.
    + exists s1. split; [|exact Y]. destruct A as [O|(G0 & G1 & G2)].
      * rewrite nice_linux in X by exact O. destruct O as (-> & _). exact X.
      * destruct (Z.eqb_spec (a_host a) 0) as [Q|_]; [contradiction|]. unfold linux_expected in X. rewrite G1, G2 in X.
        change (is_check_condition 0 0) with false in X. cbv iota in X. unfold is_clean in X. cbn [Z.eqb andb] in X.
        destruct (Z.eqb_spec (a_host a) 0) as [Q'|_] in X; [contradiction|]. exact X.
  - destruct A as [(H0 & Hc & Hs)|(G0 & G1 & G2)].
    + rewrite H0. destruct (solaris_step (A := pyval) parse_sense tgt fails timeout s t (fresh s) k t1 a Hi) as (s1 & X & Y & _); auto using fits_solaris.
      * split; [unfold byte_status; lia|]. split; [apply Hf; exact H0|]. intros _. apply conforming_parses. exact Hc.
      * exists s1. split; [|exact Y]. rewrite nice_solaris in X by (split; auto). exact X.
    + destruct (Z.eqb_spec (a_host a) 0) as [Q|_]; [contradiction|].
      eapply (solaris_lost _ tgt fails timeout); eauto using fits_solaris.
  - destruct (aix_step (A := pyval) parse_sense tgt timeout use_ctypes s t (fresh s) k t1 a Hi) as (s1 & X & Y & _); auto using fits_aix.
    + intro C. destruct A as [(_ & Hc & _)|(_ & G1 & G2)]; [apply conforming_parses; exact Hc|]. rewrite G1 in C. discriminate C.
    + exists s1. split; [|exact Y]. destruct A as [O|(G0 & G1 & G2)].
      * rewrite nice_aix in X by exact O. destruct O as (-> & _). exact X.
      * destruct (Z.eqb_spec (a_host a) 0) as [Q|Q]; [contradiction|]. unfold aix_expected in X. rewrite G1 in X. cbn in X.
        destruct (Z.eqb_spec (a_host a) 0) as [Q'|_] in X; [contradiction|]. exact X.
  - destruct A as [(H0 & Hc & Hs)|(G0 & G1 & G2)].
    + rewrite H0. destruct (win_step (A := pyval) parse_sense tgt s t (fresh s) k t1 a Hi) as (s1 & X & Y & _); auto using fits_win.
      * split; [exact H0|]. intros _. apply conforming_parses. exact Hc.
      * exists s1. split; [|exact Y]. rewrite nice_win in X by (split; auto). exact X.
    + destruct (Z.eqb_spec (a_host a) 0) as [Q|_]; [contradiction|].
      eapply (win_lost _ tgt); eauto using fits_win.
Qed.

(** * Generators of one executer in the process *)

Lemma attach_dev : forall T (sys : system T) loss, raises_when_gone sys loss -> forall s, attach sys s (dev sys s) = s.
Proof.
  intros T sys loss L. destruct L as [timeout|fails timeout Hf Hg|timeout use_ctypes|];
    cbn [attach dev linux_system solaris_system aix_system win_system mem req]; intros [p i m l w]; unfold SpecReserve.replaced;
    destruct w; cbn; try reflexivity.
  match goal with |- context [(fst ?x, snd ?x)] => destruct x; reflexivity end.
Qed.

Section Lifted.
Context {T : Type} (sys : system T) (tgt : nat -> target T).
Context (back : forall s, attach sys s (dev sys s) = s).

Lemma advanced_twice : forall d s s' m, advanced sys d s' (advanced sys d s m) = advanced sys d s' m.
Proof. intros. unfold advanced. cbn [executers]. rewrite set_nth_twice. reflexivity. Qed.

Lemma advanced_at : forall d s0 s m, nth_error (executers m) d = Some s0 -> nth_error (executers (advanced sys d s m)) d = Some s.
Proof. intros d s0 s m E. cbn. apply nth_set_eq. apply nth_error_Some. congruence. Qed.

Lemma through_evaluates : forall D (g : gen _ D) i p s s' o, evaluates g i p s s' o ->
  forall d m s0, nth_error (executers m) d = Some s0 -> attach sys s0 (outside m) = s ->
  evaluates (through sys d g) i p m (advanced sys d s' m) o.
Proof.
  intros D g i p s s' o E. induction E as [g v p s s1 R N|g i p s s1 e R|g i p s s1 s2 v k o R N E IH
    |g i p s s1 s2 s3 c k v q o R E1 IH1 E2 IH2|g i p s s1 s2 s3 c k e o R E1 IH1 E2 IH2|g i p s s1 s2 s3 t k v o R Tk N E IH];
    intros d m s0 Hn Ha.
  - apply ev_finish; [|exact N]. cbn. rewrite Hn, Ha, R. reflexivity.
  - apply ev_raise. cbn. rewrite Hn, Ha, R. reflexivity.
  - eapply ev_value; [cbn; rewrite Hn, Ha, R; reflexivity|exact N|].
    rewrite <- (advanced_twice d s1 s2 m). eapply IH; [eapply advanced_at; exact Hn|apply back].
  - eapply ev_call; [cbn; rewrite Hn, Ha, R; reflexivity| |].
    + eapply IH1; [eapply advanced_at; exact Hn|apply back].
    + rewrite advanced_twice. rewrite <- (advanced_twice d s2 s3 m). eapply IH2; [eapply advanced_at; exact Hn|apply back].
  - eapply ev_call_raise; [cbn; rewrite Hn, Ha, R; reflexivity| |].
    + eapply IH1; [eapply advanced_at; exact Hn|apply back].
    + rewrite advanced_twice. rewrite <- (advanced_twice d s2 s3 m). eapply IH2; [eapply advanced_at; exact Hn|apply back].
  - eapply ev_token; [cbn; rewrite Hn, Ha, R; reflexivity| |exact N|].
    + unfold token_through. rewrite (advanced_at d s0 s1 m Hn). cbn [outside advanced]. rewrite back, Tk. reflexivity.
    + rewrite advanced_twice. rewrite <- (advanced_twice d s2 s3 m). eapply IH; [eapply advanced_at; exact Hn|apply back].
Qed.

(** Calling a generator and going on with its result or exception. *)
Lemma job_called : forall g c next i pl (m m1 m2 : machine sys) r o,
  resume g i m = (m, Yield (YGen c) (Gen (fun i' m' => resume (job_coroutine sys tgt (next (caught i'))) i' m'))) ->
  evaluates c (Send VNone) false m m1 (outcome_for r) ->
  (forall j q, evaluates (job_coroutine sys tgt (next r)) j q m1 m2 o) ->
  evaluates g i pl m m2 o.
Proof.
  intros g c next i pl m m1 m2 r o E C N.
  assert (X : forall j q, caught j = r -> evaluates (Gen (fun i' m' => resume (job_coroutine sys tgt (next (caught i'))) i' m')) j q m1 m2 o).
  { intros j q J. specialize (N j q). inversion N; subst.
    - apply ev_finish; auto.
    - eapply ev_raise. eassumption.
    - eapply ev_value; eauto.
    - eapply ev_call; eauto.
    - eapply ev_call_raise; eauto.
    - eapply ev_token; eauto. }
  destruct r as [v|e]; cbn [outcome_for] in C.
  - eapply ev_call; [exact E|exact C|]. apply X. cbn. rewrite python_yielded. reflexivity.
  - eapply ev_call_raise; [exact E|exact C|]. apply X. reflexivity.
Qed.

Context (loss : exn) (reach : forall d, reaches (os_of sys (tgt d)) (tgt d) (idle sys) (pads sys) loss).
Context (attached : forall s t t', idle sys s t -> idle sys (attach sys s t') t' /\ cb_log (attach sys s t') = cb_log s).
Context (seen_dev : forall s t, idle sys s t -> dev sys s = t).

Lemma Forall_set : forall X (P : X -> Prop) (l : list X) d x, Forall P l -> P x -> Forall P (set_nth d x l).
Proof.
  intros X P l. induction l as [|y l IH]; intros d x F Px; [destruct d; exact F|].
  inversion F; subst. destruct d; cbn; constructor; auto.
Qed.

Lemma ready_at : forall n m t d, ready sys n m t -> (d < n)%nat ->
  exists s, nth_error (executers m) d = Some s /\ idle sys (attach sys s (outside m)) t /\ fresh (attach sys s (outside m)) = fresh s.
Proof.
  intros n m t d (L & O & F) D. destruct (nth_error (executers m) d) as [s|] eqn:E.
  - exists s. split; [reflexivity|]. rewrite Forall_forall in F. destruct (F s) as [t0 I]; [eapply nth_error_In; eauto|].
    subst t. destruct (attached s t0 (outside m) I) as [A B]. split; [exact A|]. unfold fresh. rewrite B. reflexivity.
  - apply nth_error_None in E. lia.
Qed.

Lemma ready_advanced : forall n m t d s t', ready sys n m t -> idle sys s t' -> ready sys n (advanced sys d s m) t'.
Proof.
  intros n m t d s t' (L & O & F) I. split; [cbn; rewrite set_nth_length; exact L|]. split; [cbn; apply seen_dev; exact I|].
  cbn. apply Forall_set; eauto.
Qed.

(** One command of a job. *)
Lemma via_evaluates : forall n m t d c k t1 a, ready sys n m t -> (d < n)%nat -> proper c -> issued c = Ok k -> moderate k ->
  tgt d t (command_of k) (data_out k) = (t1, a) -> ordinary a \/ gone a ->
  exists o s m1, constructed c = Ok o /\ nth_error (executers m) d = Some s /\
    evaluates (through sys d (execute (os_of sys (tgt d)) (fresh s) o)) (Send VNone) false m m1
      (outcome_for (if a_host a =? 0 then seen (pads sys) c k a else Err loss)) /\
    ready sys n m1 t1.
Proof.
  intros n m t d c k t1 a R D P J M E A. destruct (ready_at n m t d R D) as (s & Hn & I & Fr).
  destruct (issued_object c k J) as (o & C & Q). pose proof (issued_spec c P) as S. rewrite J in S. destruct S as [_ S].
  destruct (reach d _ _ k t1 a I) as (s1 & X & Y); auto. { eapply cdb_at_most_16; eauto. }
  exists o, s, (advanced sys d s1 m). split; [exact C|]. split; [exact Hn|]. split; [|eapply ready_advanced; eauto].
  eapply through_evaluates; [|exact Hn|reflexivity]. rewrite <- Fr.
  replace (if a_host a =? 0 then seen (pads sys) c k a else Err loss) with (result_of (answered (pads sys) loss) o k a).
  - eapply execute_evaluates; eauto.
  - unfold result_of, answered. destruct (a_host a =? 0); [|reflexivity]. rewrite seen_nice, C. reflexivity.
Qed.

Lemma job_runs : forall n t j t' r, happens n tgt (pads sys) loss t j t' r -> forall m, ready sys n m t ->
  exists m', (forall i q, evaluates (job_coroutine sys tgt j) i q m m' (outcome_for r)) /\ ready sys n m' t'.
Proof.
  intros n t j t' r H. induction H as [t v|t e|t d c next e t' r D J H IH|t d c next k t1 a t' r D P J M G A H IH
    |t d c next k t1 a t' r D P J M G A H IH|t q next t1 rq t' r H1 IH1 H2 IH2]; intros m Hr.
  - exists m. split; [|exact Hr]. intros i q. eapply ev_value; [reflexivity|apply yielded_not_exn|].
    apply ev_finish; [reflexivity|apply yielded_not_exn].
  - exists m. split; [|exact Hr]. intros i q. apply ev_raise. reflexivity.
  - unfold issued in J. destruct (constructed c) as [o|e'] eqn:C; cbn [bind] in J.
    + destruct (ready_at n m t d Hr D) as (s & Hn & I & Fr).
      assert (Hm : ready sys n (advanced sys d (attach sys s (outside m)) m) t) by (eapply ready_advanced; eauto).
      destruct (IH _ Hm) as (m' & E & Hr'). exists m'. split; [|exact Hr']. intros i q.
      eapply (job_called _ _ next i q m _ m' (Err e)).
      * cbn. rewrite C, Hn. reflexivity.
      * eapply through_evaluates; [|exact Hn|reflexivity]. apply ev_raise. cbn. rewrite J. reflexivity.
      * exact E.
    + injection J as ->. destruct (IH m Hr) as (m' & E & Hr'). exists m'. split; [|exact Hr']. intros i q. specialize (E i q).
      assert (X : resume (job_coroutine sys tgt (Via d c next)) i m = resume (job_coroutine sys tgt (next (Err e))) i m) by (cbn; rewrite C; reflexivity).
      inversion E; subst.
      * apply ev_finish; [rewrite X|]; auto.
      * eapply ev_raise. rewrite X. eassumption.
      * eapply ev_value; [rewrite X| |]; eauto.
      * eapply ev_call; [rewrite X| |]; eauto.
      * eapply ev_call_raise; [rewrite X| |]; eauto.
      * eapply ev_token; [rewrite X| | |]; eauto.
  - destruct (via_evaluates n m t d c k t1 a Hr D P J M G (or_introl A)) as (o & s & m1 & C & Hn & E1 & Hr1).
    destruct (IH m1 Hr1) as (m' & E & Hr'). exists m'. split; [|exact Hr']. intros i q.
    destruct A as (A & _). rewrite A in E1. eapply (job_called _ _ next i q m m1 m' _); [cbn; rewrite C, Hn; reflexivity|exact E1|exact E].
  - destruct (via_evaluates n m t d c k t1 a Hr D P J M G (or_intror A)) as (o & s & m1 & C & Hn & E1 & Hr1).
    destruct (IH m1 Hr1) as (m' & E & Hr'). exists m'. split; [|exact Hr']. intros i q.
    destruct A as (A & _). apply Z.eqb_neq in A. rewrite A in E1.
    eapply (job_called _ _ next i q m m1 m' _); [cbn; rewrite C, Hn; reflexivity|exact E1|exact E].
  - destruct (IH1 m Hr) as (m1 & E1 & Hr1). destruct (IH2 m1 Hr1) as (m2 & E2 & Hr2). exists m2. split; [|exact Hr2].
    intros i q0. eapply (job_called _ (job_coroutine sys tgt q) next i q0 m m1 m2 rq); [reflexivity|apply E1|exact E2].
Qed.
End Lifted.

Lemma gone_four : forall T (sys : system T) loss, raises_when_gone sys loss -> one_of_four sys.
Proof. intros T sys loss L. destruct L; constructor; auto. Qed.

Lemma jobs : forall T (sys : system T) loss n tgt t j t' r m, raises_when_gone sys loss -> happens n tgt (pads sys) loss t j t' r ->
  ready sys n m t -> exists m', sync_wait_ends (job_coroutine sys tgt j) m m' (shown r) /\ ready sys n m' t'.
Proof.
  intros T sys loss n tgt t j t' r m L H R. destruct (four_behave T sys (gone_four _ _ _ L)) as (B1 & B2 & _).
  destruct (job_runs sys tgt (attach_dev _ _ _ L) loss (fun d => paths_reach _ _ _ L (tgt d)) B2 B1 n t j t' r H m R) as (m' & E & R').
  exists m'. split; [|exact R']. destruct r as [v|e]; cbn [shown outcome_for] in *.
  - apply sync_wait_value. apply E.
  - apply sync_wait_raise. apply E.
Qed.

Lemma jobs_only : forall T (sys : system T) loss n tgt t j t' r m m2 out, raises_when_gone sys loss -> happens n tgt (pads sys) loss t j t' r ->
  ready sys n m t -> sync_wait_ends (job_coroutine sys tgt j) m m2 out -> out = shown r /\ ready sys n m2 t'.
Proof.
  intros T sys loss n tgt t j t' r m m2 out L H R E. destruct (jobs _ _ _ _ _ _ _ _ _ _ L H R) as (m' & E' & R').
  destruct (sync_wait_det _ _ _ _ _ _ E E') as [-> ->]. auto.
Qed.

(** * Programs of one executer *)

Lemma part_happens : forall T n (tgt : nat -> target T) padded loss d t p t' r, (d < n)%nat -> does (tgt d) padded t p t' r ->
  happens n tgt padded loss t (part d p) t' r.
Proof.
  intros T n tgt padded loss d t p t' r D H. induction H; cbn [part]; try constructor.
  - eapply hp_refused; eauto.
  - eapply hp_command; eauto.
  - eapply hp_call; eauto.
Qed.

(** * Commands of a disk *)

Section DiskSteps.
Context {T : Type} (tgt : target T) (content : T -> Z -> bytes) (bs n : Z).
Hypothesis B : 1 <= bs.

Lemma read_step : forall bad sense padded c lba m, flawed_disk tgt content bs n bad sense ->
  read_of c lba m bs -> proper c -> arguments_fit c -> lba + m <= n -> m * bs < 2 ^ 32 ->
  exists k, issued c = Ok k /\ moderate k /\
    forall t, exists t1 a, tgt t (command_of k) (data_out k) = (t1, a) /\ ordinary a /\
      seen padded c k a = (if bad_in bad lba m then Err (EAsiCheckCondition (pad 255 sense))
                           else Ok (if m =? 0 then PNone else PBytes (blocks (content t) lba (Z.to_nat m)))) /\
      forall j, 0 <= j < n -> content t1 j = content t j.
Proof.
  intros bad sense padded c lba m D R P F C Sm.
  destruct (read_issue c lba m bs B R P F) as (o & cdb & f & Co & Q & I & Pr & L & M).
  destruct D as [Z1 S RD].
  assert (J : issued c = Ok (ReadCmd cdb (m * bs))) by (unfold issued; rewrite Co; exact Q).
  exists (ReadCmd cdb (m * bs)). split; [exact J|]. split; [exact Sm|]. intro t.
  destruct (RD t cdb [] lba m f I Pr L M C) as (t1 & E & K). exists t1. eexists. split; [exact E|].
  split; [destruct (bad_in bad lba m); [apply ordinary_rejection; exact S|apply ordinary_good]|]. split; [|exact K].
  destruct (bad_in bad lba m); [reflexivity|].
  pose proof (DiskFacts.blocks_length bs n (Z.to_nat m) (content t) lba L ltac:(lia) (Z1 t)) as ZL.
  rewrite Z2Nat.id in ZL by lia. unfold seen. cbn [good a_status a_data Z.eqb]. rewrite <- ZL, wanted_exact, win_exact, ZL.
  rewrite Co. unfold yields. cbn [bind]. rewrite (read_finish _ _ _ _ _ R Co).
  destruct (Z.eqb_spec m 0) as [->|N0].
  - destruct padded; reflexivity.
  - destruct (Z.eqb_spec (m * bs) 0); [nia|]. destruct padded; reflexivity.
Qed.

Lemma write_step : forall padded c lba data, block_device tgt content bs n ->
  write_of c lba data bs -> proper c -> arguments_fit c -> lba + zlen data / bs <= n -> zlen data < 2 ^ 32 ->
  exists k, issued c = Ok k /\ moderate k /\
    forall t, exists t1 a, tgt t (command_of k) (data_out k) = (t1, a) /\ ordinary a /\ seen padded c k a = Ok PNone /\
      forall j, 0 <= j < n -> content t1 j = written bs lba (zlen data / bs) data (content t) j.
Proof.
  intros padded c lba data [_ _ WR] W P F C Sm.
  destruct (write_issue c lba data bs B W P F) as (o & cdb & f & Co & Q & I & Pr & L & M).
  assert (J : issued c = Ok (WriteCmd cdb data)) by (unfold issued; rewrite Co; exact Q).
  exists (WriteCmd cdb data). split; [exact J|]. split; [exact Sm|]. intro t.
  assert (N0 : 0 <= zlen data / bs) by (apply Z.div_pos; [unfold zlen|]; lia).
  destruct (WR t cdb data lba _ f I Pr L N0 C M) as (t1 & E & K). exists t1. eexists. split; [exact E|].
  split; [apply ordinary_good|]. split; [|exact K].
  apply write_seen; [|exact J]. intros o' C'. eapply write_finish; eauto.
Qed.
End DiskSteps.

(** * Copying *)

Definition covered (l : list (Z * Z)) (k : Z) : bool := existsb (fun e => (fst e <=? k) && (k <? fst e + snd e)) l.

Lemma firstn_seq_len : forall i a b, (i <= b)%nat -> firstn i (seq a b) = seq a i.
Proof. induction i as [|i IH]; intros a [|b] L; cbn; try lia; auto. f_equal. apply IH. lia. Qed.

Lemma covered_extents : forall n chunk i k, 1 <= chunk -> 0 <= n -> (i <= Z.to_nat ((n + chunk - 1) / chunk))%nat ->
  covered (firstn i (extents 0 n chunk)) k = (0 <=? k) && (k <? Z.min (chunk * Z.of_nat i) n).
Proof.
  intros n chunk i k C N I. unfold covered. apply eq_true_iff_eq. rewrite existsb_exists, andb_true_iff, Z.leb_le, Z.ltb_lt.
  unfold extents. rewrite firstn_map, firstn_seq_len by exact I.
  split.
  - intros (e & H & X). apply in_map_iff in H. destruct H as (j & <- & H). apply in_seq in H. cbn [fst snd] in X.
    apply andb_true_iff in X. rewrite Z.leb_le, Z.ltb_lt in X. nia.
  - intros (K0 & K1). exists (0 + chunk * (k / chunk), Z.min chunk (n - chunk * (k / chunk))).
    pose proof (Z.div_pos k chunk K0 ltac:(lia)). pose proof (Z.div_mod k chunk ltac:(lia)). pose proof (Z.mod_pos_bound k chunk ltac:(lia)).
    split.
    + apply in_map_iff. exists (Z.to_nat (k / chunk)). rewrite Z2Nat.id by lia. split; [reflexivity|]. apply in_seq. nia.
    + cbn [fst snd]. apply andb_true_iff. rewrite Z.leb_le, Z.ltb_lt. nia.
Qed.

Lemma blocks_shift : forall m (c : Z -> bytes) lba, blocks c lba m = blocks (fun k => c (lba + k)) 0 m.
Proof.
  intros m c lba. assert (H : forall j, blocks c (lba + j) m = blocks (fun k => c (lba + k)) j m).
  { induction m as [|m IH]; intro j; cbn [blocks]; auto. rewrite <- Z.add_assoc, IH. reflexivity. }
  rewrite <- (H 0), Z.add_0_r. reflexivity.
Qed.

(** Blocks written as they were read. *)
Lemma written_blocks : forall bs lba m c d k, 1 <= bs -> 0 <= m -> (forall j, lba <= j < lba + m -> zlen (c j) = bs) ->
  written bs lba m (blocks c lba (Z.to_nat m)) d k = if (lba <=? k) && (k <? lba + m) then c k else d k.
Proof.
  intros bs lba m c d k B M Zc. unfold written. destruct ((lba <=? k) && (k <? lba + m)) eqn:E; [|reflexivity].
  apply andb_true_iff in E. rewrite Z.leb_le, Z.ltb_lt in E.
  rewrite blocks_shift, (block_slice bs m (fun k => c (lba + k)) (k - lba) B); [f_equal; lia| |lia].
  intros j J. apply Zc. lia.
Qed.

Section Copy.
Context {A D : Type} (ta : target A) (td : target D) (ca : A -> Z -> bytes) (cd : D -> Z -> bytes) (bs n n' : Z).
Context (bad : Z -> bool) (sense ma md : bytes) (rd : reader) (wr : writer) (chunk : Z) (x : nat) (padded : bool) (loss : exn).
Hypothesis HA : flawed_disk ta ca bs n bad sense.
Hypothesis HD : block_device td cd bs n'.
Hypothesis B : 1 <= bs < 2 ^ 32.
Hypothesis N : 1 <= n.
Hypothesis NN : n <= n'.
Hypothesis Rd : reads_up_to rd bs n chunk.
Hypothesis Wr : writes_up_to wr bs n' chunk.
Hypothesis C : 1 <= chunk.
Hypothesis Sm : chunk * bs < 2 ^ 32.
Hypothesis X : (2 <= x)%nat.

Let does2 := happens x (two_devices ta td) padded loss.

Lemma copy_first : forall lba m next a d, 0 <= lba -> 1 <= m <= chunk -> lba + m <= n ->
  exists a1, (forall k, 0 <= k < n -> ca a1 k = ca a k) /\
  forall t' r, does2 (a1, d) (next (if bad_in bad lba m then Err (EAsiCheckCondition (pad 255 sense))
                                    else Ok (PBytes (blocks (ca a) lba (Z.to_nat m))))) t' r ->
    does2 (a, d) (Via 0 (rd lba m bs) next) t' r.
Proof.
  intros lba m next a d L M Cp. destruct (Rd lba m L M Cp) as (R1 & P1 & F1).
  destruct (read_step ta ca bs n ltac:(lia) bad sense padded (rd lba m bs) lba m HA R1 P1 F1 Cp ltac:(nia)) as (k & J & Mo & S).
  destruct (S a) as (a1 & y & E & O & Sn & K). exists a1. split; [exact K|]. intros t' r H.
  eapply hp_command; [lia|exact P1|exact J|exact Mo| |exact O|].
  - cbn [two_devices fst snd]. rewrite E. reflexivity.
  - rewrite Sn. destruct (Z.eqb_spec m 0) as [Q|_]; [lia|]. exact H.
Qed.

Lemma copy_second : forall lba m data next a d, 0 <= lba -> 1 <= m <= chunk -> lba + m <= n -> zlen data = m * bs ->
  exists d1, (forall k, 0 <= k < n' -> cd d1 k = written bs lba m data (cd d) k) /\
  forall t' r, does2 (a, d1) (next (Ok PNone)) t' r -> does2 (a, d) (Via 1 (wr lba data bs) next) t' r.
Proof.
  intros lba m data next a d L M Cp Zd. destruct (Wr lba m data L M ltac:(lia) Zd) as (W1 & P1 & F1).
  assert (Q : zlen data / bs = m) by (rewrite Zd; apply Z.div_mul; lia).
  destruct (write_step td cd bs n' ltac:(lia) padded (wr lba data bs) lba data HD W1 P1 F1 ltac:(lia) ltac:(nia)) as (k & J & Mo & S).
  destruct (S d) as (d1 & y & E & O & Sn & K). rewrite Q in K. exists d1. split; [exact K|]. intros t' r H.
  eapply hp_command; [lia|exact P1|exact J|exact Mo| |exact O|].
  - cbn [two_devices fst snd]. rewrite E. reflexivity.
  - rewrite Sn. exact H.
Qed.

Lemma copy_prefix : forall l1 l2 a d, (forall e, In e l1 -> 0 <= fst e /\ 1 <= snd e <= chunk /\ fst e + snd e <= n /\ bad_in bad (fst e) (snd e) = false) ->
  exists a1 d1, (forall k, 0 <= k < n -> ca a1 k = ca a k) /\
    (forall k, 0 <= k < n' -> cd d1 k = if covered l1 k then ca a k else cd d k) /\
    forall t' r, does2 (a1, d1) (copying rd wr bs l2) t' r -> does2 (a, d) (copying rd wr bs (l1 ++ l2)) t' r.
Proof.
  induction l1 as [|[lba m] l1 IH]; intros l2 a d H.
  - exists a, d. repeat split; auto.
  - destruct (H _ (or_introl eq_refl)) as (L & M & Cp & G). cbn [fst snd] in *. cbn [app copying].
    match goal with |- context [Via 0 (rd lba m bs) ?f] => destruct (copy_first lba m f a d L M Cp) as (a1 & K1 & S1) end.
    assert (Zc : forall j, 0 <= j < n -> zlen (ca a j) = bs) by (destruct HA as [Z1 _ _]; apply Z1).
    assert (Zd : zlen (blocks (ca a) lba (Z.to_nat m)) = m * bs).
    { rewrite (DiskFacts.blocks_length bs n) by (auto; lia). lia. }
    match type of S1 with context [if bad_in bad lba m then _ else _] => rewrite G in S1 end. cbv beta iota in S1.
    match type of S1 with context [Via 1 (wr lba _ bs) ?f] => destruct (copy_second lba m _ f a1 d L M Cp Zd) as (d1 & K2 & S2) end.
    destruct (IH l2 a1 d1) as (a2 & d2 & K3 & K4 & S3). { intros e I. apply H. right. exact I. }
    exists a2, d2. split; [intros k Hk; rewrite K3, K1; auto|]. split.
    + intros k Hk. rewrite K4 by exact Hk. cbn [covered existsb fst snd].
      change (existsb (fun e => (fst e <=? k) && (k <? fst e + snd e)) l1) with (covered l1 k).
      rewrite K2 by exact Hk. rewrite written_blocks; [|lia|lia|intros j J; apply Zc; lia].
      destruct (covered l1 k) eqn:Cv.
      * rewrite orb_true_r. apply K1. unfold covered in Cv. apply existsb_exists in Cv. destruct Cv as ([l0 m0] & I & V).
        destruct (H _ (or_intror I)) as (? & ? & ? & _). cbn [fst snd] in *. apply andb_true_iff in V. rewrite Z.leb_le, Z.ltb_lt in V. lia.
      * rewrite orb_false_r. reflexivity.
    + intros t' r Hd. apply S1. apply S2. apply S3. exact Hd.
Qed.

(** All blocks can be read. *)
Lemma copy_all : forall a d, (forall k, 0 <= k < n -> bad k = false) ->
  exists a1 d1, does2 (a, d) (copying rd wr bs (extents 0 n chunk)) (a1, d1) (Ok PNone) /\
    (forall k, 0 <= k < n -> ca a1 k = ca a k) /\ (forall k, 0 <= k < n' -> cd d1 k = if k <? n then ca a k else cd d k).
Proof.
  intros a d G. destruct (copy_prefix (extents 0 n chunk) [] a d) as (a1 & d1 & K1 & K2 & S).
  - intros e I. destruct (extent_ok 0 n chunk ltac:(lia) C _ I) as (L & M & Cp). split; [lia|]. split; [lia|]. split; [lia|].
    apply not_true_is_false. intro V. unfold bad_in in V. apply existsb_exists in V. destruct V as (i & Ii & V).
    apply in_seq in Ii. rewrite G in V by lia. discriminate.
  - exists a1, d1. rewrite app_nil_r in S. split; [apply S; constructor|]. split; [exact K1|].
    intros k Hk. rewrite K2 by exact Hk. rewrite <- (firstn_all (extents 0 n chunk)). unfold extents at 1. rewrite map_length, seq_length.
    rewrite covered_extents by lia.
    assert (Cn : n <= chunk * Z.of_nat (Z.to_nat ((n + chunk - 1) / chunk))).
    { rewrite Z2Nat.id by (apply Z.div_pos; lia). pose proof (Z.div_mod (n + chunk - 1) chunk ltac:(lia)).
      pose proof (Z.mod_pos_bound (n + chunk - 1) chunk ltac:(lia)). lia. }
    rewrite Z.min_r by exact Cn. replace (0 <=? k) with true by (symmetry; apply Z.leb_le; lia). reflexivity.
Qed.

(** Block [b] is the first that cannot be read. *)
Lemma copy_until : forall a d b, 0 <= b < n -> bad b = true -> (forall k, 0 <= k < b -> bad k = false) ->
  exists a1 d1, does2 (a, d) (copying rd wr bs (extents 0 n chunk)) (a1, d1) (Err (EAsiCheckCondition (pad 255 sense))) /\
    (forall k, 0 <= k < n -> ca a1 k = ca a k) /\
    (forall k, 0 <= k < n' -> cd d1 k = if k <? chunk * (b / chunk) then ca a k else cd d k).
Proof.
  intros a d b Hb Bb G. pose proof (Z.div_pos b chunk ltac:(lia) ltac:(lia)) as P0. pose proof (Z.div_mod b chunk ltac:(lia)) as P1.
  pose proof (Z.mod_pos_bound b chunk ltac:(lia)) as P2. set (i := b / chunk) in *.
  assert (P3 : i < (n + chunk - 1) / chunk). { assert (i + 1 <= (n + chunk - 1) / chunk) by (apply Z.div_le_lower_bound; nia). lia. }
  set (f := fun j : nat => (0 + chunk * Z.of_nat j, Z.min chunk (n - chunk * Z.of_nat j))).
  assert (E : extents 0 n chunk = map f (seq 0 (Z.to_nat i)) ++ f (Z.to_nat i) :: map f (seq (Datatypes.S (Z.to_nat i)) (Z.to_nat ((n + chunk - 1) / chunk) - Datatypes.S (Z.to_nat i)))).
  { unfold extents. fold f.
    replace (Z.to_nat ((n + chunk - 1) / chunk)) with (Z.to_nat i + Datatypes.S (Z.to_nat ((n + chunk - 1) / chunk) - Datatypes.S (Z.to_nat i)))%nat at 1 by lia.
    rewrite seq_app, map_app. reflexivity. }
  rewrite E.
  match goal with |- context [_ ++ f (Z.to_nat i) :: ?l] => destruct (copy_prefix (map f (seq 0 (Z.to_nat i))) (f (Z.to_nat i) :: l) a d) as (a1 & d1 & K1 & K2 & S) end.
  - intros e I. assert (I2 : In e (extents 0 n chunk)) by (rewrite E; apply in_or_app; left; exact I).
    destruct (extent_ok 0 n chunk ltac:(lia) C _ I2) as (L & M & Cp). split; [lia|]. split; [lia|]. split; [lia|].
    apply in_map_iff in I. destruct I as (j & <- & I). apply in_seq in I. unfold f in *. cbn [fst snd] in *.
    apply not_true_is_false. intro V. unfold bad_in in V. apply existsb_exists in V. destruct V as (q & Iq & V).
    apply in_seq in Iq. rewrite G in V by nia. discriminate.
  - assert (I2 : In (f (Z.to_nat i)) (extents 0 n chunk)) by (rewrite E; apply in_or_app; right; left; reflexivity).
    destruct (extent_ok 0 n chunk ltac:(lia) C _ I2) as (L & M & Cp).
    assert (Ef : f (Z.to_nat i) = (0 + chunk * i, Z.min chunk (n - chunk * i))) by (unfold f; rewrite Z2Nat.id by lia; reflexivity).
    rewrite Ef in *. cbn [copying] in S. cbn [fst snd] in L, M, Cp.
    match type of S with context [Via 0 (rd ?u ?v bs) ?g] => destruct (copy_first u v g a1 d1 ltac:(lia) M ltac:(lia)) as (a2 & K3 & S2) end.
    exists a2, d1. split; [|split].
    + apply S. apply S2. unfold bad_in.
      replace (existsb _ _) with true; [constructor|]. symmetry. apply existsb_exists. exists (Z.to_nat (b - (0 + chunk * i))).
      split; [apply in_seq; nia|]. rewrite Z2Nat.id by lia. replace (0 + chunk * i + (b - (0 + chunk * i))) with b by lia. exact Bb.
    + intros k Hk. rewrite K3, K1; auto.
    + intros k Hk. rewrite K2 by exact Hk.
      assert (E1 : map f (seq 0 (Z.to_nat i)) = firstn (Z.to_nat i) (extents 0 n chunk)).
      { rewrite E, firstn_app, firstn_all2 by (rewrite map_length, seq_length; lia).
        rewrite map_length, seq_length, Nat.sub_diag, firstn_O, app_nil_r. reflexivity. }
      rewrite E1, covered_extents by lia. rewrite Z2Nat.id by lia. rewrite Z.min_l by nia.
      replace (0 <=? k) with true by (symmetry; apply Z.leb_le; lia). reflexivity.
Qed.
End Copy.

Lemma first_does : forall A D (ta : target A) (td : target D) padded a p a' r d, does ta padded a p a' r ->
  does (two_devices ta td 0) padded (a, d) p (a', d) r.
Proof.
  intros A D ta td padded a p a' r d H. induction H; try constructor.
  - eapply does_refused; eauto.
  - eapply does_command; eauto. cbn [two_devices fst snd].
    match goal with E : ta _ _ _ = _ |- _ => rewrite E end. reflexivity.
  - eapply does_call; eauto.
Qed.
Lemma second_does : forall A D (ta : target A) (td : target D) i padded a p d' r d, does td padded d p d' r ->
  does (two_devices ta td (Datatypes.S i)) padded (a, d) p (a, d') r.
Proof.
  intros A D ta td i padded a p a' r d H. induction H; try constructor.
  - eapply does_refused; eauto.
  - eapply does_command; eauto. cbn [two_devices fst snd].
    match goal with E : td _ _ _ = _ |- _ => rewrite E end. reflexivity.
  - eapply does_call; eauto.
Qed.

Section CopyDisk.
Context {A D : Type} (ta : target A) (td : target D) (ca : A -> Z -> bytes) (cd : D -> Z -> bytes) (bs n bs' n' : Z).
Context (ma md : bytes) (rd : reader) (wr : writer) (chunk : Z) (x : nat) (padded : bool) (loss : exn).
Hypothesis RA : reports_capacity ta ca bs n ma.
Hypothesis RD : reports_capacity td cd bs' n' md.
Hypothesis B : 1 <= bs < 2 ^ 32.
Hypothesis B' : 1 <= bs' < 2 ^ 32.
Hypothesis N : 1 <= n <= 2 ^ 64.
Hypothesis N' : 1 <= n' <= 2 ^ 64.
Hypothesis X : (2 <= x)%nat.

Lemma copy_sizes : forall a d, exists a1 d1, (forall k, 0 <= k < n -> ca a1 k = ca a k) /\ (forall k, 0 <= k < n' -> cd d1 k = cd d k) /\
  forall t' r, happens x (two_devices ta td) padded loss (a1, d1)
      (if (bs =? bs') && (n <=? n') then copying rd wr bs (extents 0 n chunk) else JFail EValue) t' r ->
    happens x (two_devices ta td) padded loss (a, d) (copy_disk rd wr chunk) t' r.
Proof.
  intros a d. destruct (capacity_does ta ca bs n ma RA B N padded a (fun n bs => Return (PList [PInt n; PInt bs]))) as (a1 & K1 & S1).
  destruct (capacity_does td cd bs' n' md RD B' N' padded d (fun n bs => Return (PList [PInt n; PInt bs]))) as (d1 & K2 & S2).
  exists a1, d1. split; [exact K1|]. split; [exact K2|]. intros t' r H. unfold copy_disk.
  eapply hp_call.
  - apply part_happens; [lia|]. apply first_does. apply S1. constructor.
  - cbv beta. eapply hp_call.
    + apply part_happens; [lia|]. apply second_does. apply S2. constructor.
    + cbv beta iota. exact H.
Qed.
End CopyDisk.

(** * Several paths to one device *)

Section Failover.
Context {T : Type} (tgt : target T) (x : nat) (padded : bool) (loss : exn).
Hypothesis Loss : forall s, loss <> EAsiCheckCondition s.
Let along := happens x (fun _ : nat => unreliable tgt) padded loss.

(** The device after commands [k] none of which gets an answer. *)
Fixpoint unanswered (k : scsi_command) (fs : list fault) (t : T) : T :=
  match fs with
  | [] => t
  | AnswerLost :: fs => unanswered k fs (fst (tgt t (command_of k) (data_out k)))
  | _ :: fs => unanswered k fs t
  end.

Lemma no_answer_gone : gone no_answer.
Proof. repeat split; cbn; lia. Qed.

(** Fewer losses than paths: the answer to the first command that gets one. *)
Lemma failover_works : forall c k, proper c -> issued c = Ok k -> moderate k ->
  (forall t t1 a, tgt t (command_of k) (data_out k) = (t1, a) -> ordinary a) ->
  forall ds fs t, Forall (fun d => (d < x)%nat) ds -> (losses fs < length ds)%nat ->
  let t1 := unanswered k (firstn (losses fs) fs) t in
  (exists v, seen padded c k (snd (tgt t1 (command_of k) (data_out k))) = Ok v) \/ a_status (snd (tgt t1 (command_of k) (data_out k))) = 2 ->
  along (t, fs) (failover ds c) (fst (tgt t1 (command_of k) (data_out k)), skipn (Datatypes.S (losses fs)) fs)
    (seen padded c k (snd (tgt t1 (command_of k) (data_out k)))).
Proof.
  intros c k P J M Or ds. induction ds as [|d ds IH]; intros fs t F L; [cbn in L; lia|].
  inversion F as [|y z Fd Fr]; subst. cbv zeta. intro V.
  destruct fs as [|[| |] fs]; cbn [losses firstn unanswered skipn length] in *.
  - destruct (tgt t (command_of k) (data_out k)) as [t1 a] eqn:E. cbn [fst snd] in *.
    pose proof (Or _ _ _ E) as O.
    eapply hp_command; [exact Fd|exact P|exact J|exact M|cbn [unreliable]; rewrite E; reflexivity|exact O|]. cbv beta. cbn [fst snd].
    destruct V as [(v & V)|V]; [rewrite V; constructor|]. unfold seen. rewrite V. cbn [Z.eqb]. constructor.
  - destruct (tgt t (command_of k) (data_out k)) as [t1 a] eqn:E. cbn [fst snd] in *.
    pose proof (Or _ _ _ E) as O.
    eapply hp_command; [exact Fd|exact P|exact J|exact M|cbn [unreliable]; rewrite E; reflexivity|exact O|]. cbv beta. cbn [fst snd].
    destruct V as [(v & V)|V]; [rewrite V; constructor|]. unfold seen. rewrite V. cbn [Z.eqb]. constructor.
  - eapply hp_gone; [exact Fd|exact P|exact J|exact M|cbn [unreliable]; reflexivity|apply no_answer_gone|]. cbv beta iota.
    assert (R : (losses fs < length ds)%nat) by lia. specialize (IH fs t Fr R V).
    destruct loss; try (exfalso; eapply Loss; reflexivity); (destruct ds; [cbn in R; lia|exact IH]).
  - eapply hp_gone; [exact Fd|exact P|exact J|exact M|cbn [unreliable]; reflexivity|apply no_answer_gone|]. cbv beta iota.
    assert (R : (losses fs < length ds)%nat) by lia. specialize (IH fs _ Fr R V).
    destruct loss; try (exfalso; eapply Loss; reflexivity); (destruct ds; [cbn in R; lia|exact IH]).
Qed.

(** No path left. *)
Lemma failover_fails : forall c k, proper c -> issued c = Ok k -> moderate k ->
  forall ds fs t, Forall (fun d => (d < x)%nat) ds -> ds <> [] -> (length ds <= losses fs)%nat ->
  along (t, fs) (failover ds c) (unanswered k (firstn (length ds) fs) t, skipn (length ds) fs) (Err loss).
Proof.
  intros c k P J M ds. induction ds as [|d ds IH]; intros fs t F Ne L; [congruence|].
  inversion F as [|y z Fd Fr]; subst.
  destruct fs as [|[| |] fs]; cbn [losses length] in L; try lia; cbn [length firstn unanswered skipn].
  - eapply hp_gone; [exact Fd|exact P|exact J|exact M|cbn [unreliable]; reflexivity|apply no_answer_gone|]. cbv beta iota.
    destruct ds as [|d' ds].
    + destruct loss; try (exfalso; eapply Loss; reflexivity); constructor.
    + assert (R : (length (d' :: ds) <= losses fs)%nat) by lia. specialize (IH fs t Fr ltac:(discriminate) R).
      destruct loss; try (exfalso; eapply Loss; reflexivity); exact IH.
  - eapply hp_gone; [exact Fd|exact P|exact J|exact M|cbn [unreliable]; reflexivity|apply no_answer_gone|]. cbv beta iota.
    destruct ds as [|d' ds].
    + destruct loss; try (exfalso; eapply Loss; reflexivity); constructor.
    + assert (R : (length (d' :: ds) <= losses fs)%nat) by lia. specialize (IH fs (fst (tgt t (command_of k) (data_out k))) Fr ltac:(discriminate) R).
      destruct loss; try (exfalso; eapply Loss; reflexivity); exact IH.
Qed.
End Failover.

Lemma loss_other : forall T (sys : system T) loss, raises_when_gone sys loss -> forall s, loss <> EAsiCheckCondition s.
Proof. intros T sys loss L s. destruct L; discriminate. Qed.

Section FailoverDisk.
Context {T : Type} (tgt : target T) (content : T -> Z -> bytes) (bs n : Z) (x : nat) (padded : bool) (loss : exn).
Hypothesis Loss : forall s, loss <> EAsiCheckCondition s.
Hypothesis B : 1 <= bs.
Hypothesis Dk : block_device tgt content bs n.
Let along := happens x (fun _ : nat => unreliable tgt) padded loss.
Let same (t t' : T) := forall j, 0 <= j < n -> content t' j = content t j.

Lemma flawless_read : forall c lba m, read_of c lba m bs -> proper c -> arguments_fit c -> lba + m <= n -> m * bs < 2 ^ 32 ->
  exists k, issued c = Ok k /\ moderate k /\ 0 <= lba /\ 0 <= m /\
    forall t, exists t1 a, tgt t (command_of k) (data_out k) = (t1, a) /\ ordinary a /\
      seen padded c k a = Ok (if m =? 0 then PNone else PBytes (blocks (content t) lba (Z.to_nat m))) /\ same t t1.
Proof.
  intros c lba m R P F C Sm.
  destruct (read_issue c lba m bs B R P F) as (_ & _ & _ & _ & _ & _ & _ & L & M).
  destruct (read_step tgt content bs n B (fun _ => false) [] padded c lba m (flawless _ _ _ _ _ Dk) R P F C Sm) as (k & J & Mo & S).
  exists k. repeat (split; [assumption|]). intro t. destruct (S t) as (t1 & a & E & O & Sn & K).
  rewrite never_bad in Sn. eauto 8.
Qed.

Lemma unanswered_same : forall k, (forall t, same t (fst (tgt t (command_of k) (data_out k)))) ->
  forall fs t, same t (unanswered tgt k fs t).
Proof.
  intros k H fs. induction fs as [|[| |] fs IH]; intros t; cbn [unanswered]; auto; [intros j J; reflexivity|].
  intros j J. rewrite IH by exact J. apply H. exact J.
Qed.

Lemma failover_read : forall c lba m ds fs t, read_of c lba m bs -> proper c -> arguments_fit c -> lba + m <= n -> m * bs < 2 ^ 32 ->
  Forall (fun d => (d < x)%nat) ds -> ds <> [] ->
  exists t', same t t' /\
    if (losses fs <? length ds)%nat
    then along (t, fs) (failover ds c) (t', skipn (Datatypes.S (losses fs)) fs)
           (Ok (if m =? 0 then PNone else PBytes (blocks (content t) lba (Z.to_nat m))))
    else along (t, fs) (failover ds c) (t', skipn (length ds) fs) (Err loss).
Proof.
  intros c lba m ds fs t R P F C Sm Fd Ne. destruct (flawless_read c lba m R P F C Sm) as (k & J & Mo & L0 & M0 & S).
  assert (Sa : forall t, same t (fst (tgt t (command_of k) (data_out k)))).
  { intro t0. destruct (S t0) as (t1 & a & E & _ & _ & K). rewrite E. exact K. }
  destruct (Nat.ltb_spec (losses fs) (length ds)) as [Lt|Ge].
  - set (t1 := unanswered tgt k (firstn (losses fs) fs) t).
    pose proof (unanswered_same k Sa (firstn (losses fs) fs) t) as S1. fold t1 in S1.
    pose proof (failover_works tgt x padded loss Loss c k P J Mo) as W.
    match type of W with ?H -> _ => assert (HW : H) end.
    { intros t0 t2 a E. destruct (S t0) as (t3 & a3 & E3 & O & _). congruence. }
    specialize (W HW ds fs t Fd Lt). cbv zeta in W. fold t1 in W. destruct (S t1) as (t2 & a & E & _ & Sn & K).
    rewrite E in W. cbn [fst snd] in W. rewrite Sn in W.
    rewrite (blocks_ext n (Z.to_nat m) (content t1) (content t) lba L0 ltac:(lia) S1) in W.
    exists t2. split; [intros j Hj; rewrite K, S1; auto|]. apply W. left. eauto.
  - exists (unanswered tgt k (firstn (length ds) fs) t). split; [apply unanswered_same; exact Sa|].
    apply failover_fails; auto.
Qed.

Lemma written_again : forall lba m data c k, written bs lba m data (written bs lba m data c) k = written bs lba m data c k.
Proof. intros. unfold written. destruct ((lba <=? k) && (k <? lba + m)); reflexivity. Qed.

Lemma unanswered_written : forall k lba m data,
  (forall t j, 0 <= j < n -> content (fst (tgt t (command_of k) (data_out k))) j = written bs lba m data (content t) j) ->
  forall fs t j, 0 <= j < n -> content (unanswered tgt k fs t) j =
    if existsb answer_lost fs then written bs lba m data (content t) j else content t j.
Proof.
  intros k lba m data H fs. induction fs as [|[| |] fs IH]; intros t j Hj; cbn [unanswered existsb answer_lost orb]; auto.
  rewrite IH by exact Hj. rewrite H by exact Hj.
  rewrite (DiskFacts.written_ext bs lba m data _ (written bs lba m data (content t))) by (apply H; exact Hj).
  rewrite written_again. destruct (existsb answer_lost fs); reflexivity.
Qed.

Lemma failover_write : forall c lba data ds fs t, write_of c lba data bs -> proper c -> arguments_fit c ->
  lba + zlen data / bs <= n -> zlen data < 2 ^ 32 -> Forall (fun d => (d < x)%nat) ds -> ds <> [] ->
  exists t',
    if (losses fs <? length ds)%nat
    then along (t, fs) (failover ds c) (t', skipn (Datatypes.S (losses fs)) fs) (Ok PNone) /\
         forall j, 0 <= j < n -> content t' j = written bs lba (zlen data / bs) data (content t) j
    else along (t, fs) (failover ds c) (t', skipn (length ds) fs) (Err loss) /\
         forall j, 0 <= j < n -> content t' j =
           if existsb answer_lost (firstn (length ds) fs) then written bs lba (zlen data / bs) data (content t) j else content t j.
Proof.
  intros c lba data ds fs t W P F C Sm Fd Ne.
  destruct (write_step tgt content bs n B padded c lba data Dk W P F C Sm) as (k & J & Mo & S).
  assert (Wr : forall t j, 0 <= j < n -> content (fst (tgt t (command_of k) (data_out k))) j = written bs lba (zlen data / bs) data (content t) j).
  { intros t0 j Hj. destruct (S t0) as (t1 & a & E & _ & _ & K). rewrite E. apply K. exact Hj. }
  destruct (Nat.ltb_spec (losses fs) (length ds)) as [Lt|Ge].
  - set (t1 := unanswered tgt k (firstn (losses fs) fs) t).
    pose proof (unanswered_written k lba _ data Wr (firstn (losses fs) fs) t) as S1. fold t1 in S1.
    pose proof (failover_works tgt x padded loss Loss c k P J Mo) as V.
    match type of V with ?H -> _ => assert (HV : H) end.
    { intros t0 t2 a E. destruct (S t0) as (t3 & a3 & E3 & O & _). congruence. }
    specialize (V HV ds fs t Fd Lt). cbv zeta in V. fold t1 in V. destruct (S t1) as (t2 & a & E & _ & Sn & K).
    rewrite E in V. cbn [fst snd] in V. rewrite Sn in V.
    exists t2. split; [apply V; left; eauto|]. intros j Hj. rewrite K by exact Hj.
    destruct (existsb answer_lost (firstn (losses fs) fs)).
    + rewrite (DiskFacts.written_ext bs lba _ data _ (written bs lba (zlen data / bs) data (content t))) by (apply S1; exact Hj).
      apply written_again.
    + apply DiskFacts.written_ext. apply S1. exact Hj.
  - exists (unanswered tgt k (firstn (length ds) fs) t). split; [apply failover_fails; auto|].
    intros j Hj. apply unanswered_written; auto.
Qed.

Lemma fewer_skip : forall q fs i, fewer_losses q fs -> fewer_losses q (skipn i fs).
Proof.
  intros q fs i H j. specialize (H (j + i)%nat). rewrite DiskFacts.skipn_plus in H. exact H.
Qed.

Lemma failover_session : forall ds, Forall (fun d => (d < x)%nat) ds -> ds <> [] ->
  forall d cmds d' l, disk_session bs n d cmds d' l -> forall vs, l = map Ok vs -> forall t fs acc,
  (forall k, 0 <= k < n -> content t k = d k) -> fewer_losses (length ds) fs ->
  exists t' fs', along (t, fs) (failing_over ds cmds acc) (t', fs') (Ok (PList (rev acc ++ vs))) /\
    (exists i, fs' = skipn i fs) /\ forall k, 0 <= k < n -> content t' k = d' k.
Proof.
  intros ds Fd Ne d cmds d' l S. induction S as [d|d c lba m cmds d' l R P F In Sz S IH|d c lba data cmds d' l R P F In Sz S IH];
    intros vs V t fs acc E Fw.
  - destruct vs; [|discriminate V]. exists t, fs. cbn [failing_over]. rewrite app_nil_r. split; [constructor|]. split; [exists 0%nat; reflexivity|exact E].
  - destruct vs as [|v vs]; [discriminate V|]. cbn [map] in V. injection V as V1 V2.
    destruct (read_issue c lba m bs B R P F) as (_ & _ & _ & _ & _ & _ & _ & L & M).
    destruct (failover_read c lba m ds fs t R P F In Sz Fd Ne) as (t1 & Sm & A).
    pose proof (Fw 0%nat) as Z0. cbn [skipn] in Z0. apply Nat.ltb_lt in Z0. rewrite Z0 in A.
    rewrite (blocks_ext n (Z.to_nat m) (content t) d lba L ltac:(lia) E), V1 in A.
    destruct (IH vs V2 t1 (skipn (Datatypes.S (losses fs)) fs) (v :: acc)) as (t2 & fs2 & A2 & (i & I2) & E2).
    { intros k Hk. rewrite Sm by exact Hk. apply E. exact Hk. }
    { apply fewer_skip. exact Fw. }
    exists t2, fs2. split; [|split; [|exact E2]].
    + cbn [failing_over]. eapply hp_call; [exact A|]. cbv beta iota. cbn [rev] in A2. rewrite <- app_assoc in A2. exact A2.
    + rewrite I2. exists (i + Datatypes.S (losses fs))%nat. rewrite DiskFacts.skipn_plus. reflexivity.
  - destruct vs as [|v vs]; [discriminate V|]. cbn [map] in V. injection V as V1 V2.
    destruct (failover_write c lba data ds fs t R P F In Sz Fd Ne) as (t1 & A).
    pose proof (Fw 0%nat) as Z0. cbn [skipn] in Z0. apply Nat.ltb_lt in Z0. rewrite Z0 in A. destruct A as [A Wt].
    destruct (IH vs V2 t1 (skipn (Datatypes.S (losses fs)) fs) (v :: acc)) as (t2 & fs2 & A2 & (i & I2) & E2).
    { intros k Hk. rewrite Wt by exact Hk. apply DiskFacts.written_ext. apply E. exact Hk. }
    { apply fewer_skip. exact Fw. }
    exists t2, fs2. split; [|split; [|exact E2]].
    + cbn [failing_over]. eapply hp_call; [exact A|]. cbv beta iota. rewrite V1. cbn [rev] in A2. rewrite <- app_assoc in A2. exact A2.
    + rewrite I2. exists (i + Datatypes.S (losses fs))%nat. rewrite DiskFacts.skipn_plus. reflexivity.
Qed.
End FailoverDisk.

Section FailoverCompare.
Context {T : Type} (tgt : target T) (content : T -> Z -> bytes) (bs n : Z) (sense : bytes) (x : nat) (padded : bool) (loss : exn).
Hypothesis Loss : forall s, loss <> EAsiCheckCondition s.
Hypothesis B : 1 <= bs < 2 ^ 31.
Hypothesis Dk : compare_disk (fun _ => tgt) content bs n sense.
Context (lba m : Z) (old new : bytes).
Hypothesis L : 0 <= lba.
Hypothesis M : 0 <= m < 2 ^ 8.
Hypothesis C : lba + m <= n.
Hypothesis L64 : lba < 2 ^ 64.
Hypothesis Sm : 2 * m * bs < 2 ^ 32.
Hypothesis Zo : zlen old = m * bs.
Hypothesis Zn : zlen new = m * bs.
Let c := CompareAndWrite lba (old ++ new) m bs [].
Let along := happens x (fun _ : nat => unreliable tgt) padded loss.

Lemma compare_step : exists k, proper c /\ issued c = Ok k /\ moderate k /\ forall t, exists t1 a,
  tgt t (command_of k) (data_out k) = (t1, a) /\ ordinary a /\
  (if same_bytes (blocks (content t) lba (Z.to_nat m)) old
   then seen padded c k a = Ok PNone /\ forall j, 0 <= j < n -> content t1 j = written bs lba m new (content t) j
   else a_status a = 2 /\ seen padded c k a = Err (EAsiCheckCondition (pad 255 sense)) /\ forall j, 0 <= j < n -> content t1 j = content t j).
Proof.
  assert (ZB : zlen (old ++ new) = 2 * m * bs) by (unfold zlen in *; rewrite app_length, Nat2Z.inj_add; lia).
  destruct (compare_issue lba (old ++ new) m bs ltac:(lia) ltac:(lia) M) as (P & cdb & f & J & I & Pr).
  { rewrite ZB. apply Z.mod_mul. lia. }
  exists (WriteCmd cdb (old ++ new)). split; [exact P|]. split; [exact J|]. split; [unfold moderate; lia|]. intro t.
  destruct Dk as [_ [Sc _] CW]. destruct (CW 0%nat t cdb (old ++ new) lba m f I Pr L ltac:(lia) C ZB) as (t1 & E & K).
  assert (F : firstn (Z.to_nat (m * bs)) (old ++ new) = old).
  { rewrite <- Zo. unfold zlen. rewrite Nat2Z.id, firstn_app, Nat.sub_diag, firstn_all, firstn_O. apply app_nil_r. }
  assert (S : skipn (Z.to_nat (m * bs)) (old ++ new) = new).
  { rewrite <- Zo. unfold zlen. rewrite Nat2Z.id, skipn_app, Nat.sub_diag, skipn_all. reflexivity. }
  rewrite F in E, K. rewrite S in K. exists t1. eexists. split; [exact E|].
  destruct (same_bytes (blocks (content t) lba (Z.to_nat m)) old) eqn:Eq.
  - split; [apply ordinary_good|]. split; [|exact K]. apply write_seen; [apply compare_finish|exact J].
  - split; [apply ordinary_rejection; exact Sc|]. split; [reflexivity|]. split; [reflexivity|exact K].
Qed.

Lemma blocks_new : forall d t, (forall j, 0 <= j < n -> content t j = written bs lba m new d j) ->
  blocks (content t) lba (Z.to_nat m) = new.
Proof.
  intros d t H. rewrite (blocks_ext n (Z.to_nat m) (content t) (written bs lba m new d) lba L ltac:(lia) H).
  assert (Q : zlen new / bs = m) by (rewrite Zn; apply Z.div_mul; lia). rewrite <- Q. apply read_back; [lia|].
  rewrite Zn. apply Z.mod_mul. lia.
Qed.

(** Commands without an answer: as if the first of those whose answers were lost had been the only one. *)
Lemma unanswered_compare : forall k, (forall t, exists t1 a, tgt t (command_of k) (data_out k) = (t1, a) /\
    (if same_bytes (blocks (content t) lba (Z.to_nat m)) old
     then forall j, 0 <= j < n -> content t1 j = written bs lba m new (content t) j
     else forall j, 0 <= j < n -> content t1 j = content t j)) ->
  forall fs t j, 0 <= j < n -> content (unanswered tgt k fs t) j =
    if same_bytes (blocks (content t) lba (Z.to_nat m)) old && existsb answer_lost fs then written bs lba m new (content t) j else content t j.
Proof.
  intros k H fs. induction fs as [|[| |] fs IH]; intros t j Hj; cbn [unanswered existsb answer_lost orb]; auto.
  - rewrite andb_false_r. reflexivity.
  - destruct (H t) as (t1 & a & E & K). rewrite E. cbn [fst]. rewrite IH by exact Hj. rewrite andb_true_r.
    destruct (same_bytes (blocks (content t) lba (Z.to_nat m)) old) eqn:Eq.
    + rewrite (blocks_new (content t) t1 K).
      destruct (same_bytes new old && existsb answer_lost fs); [|apply K; exact Hj].
      rewrite (DiskFacts.written_ext bs lba m new _ (written bs lba m new (content t))) by (apply K; exact Hj).
      apply written_again.
    + rewrite (blocks_ext n (Z.to_nat m) (content t1) (content t) lba L ltac:(lia) K), Eq. cbn [andb]. apply K. exact Hj.
Qed.

Lemma failover_compare : forall ds fs t, Forall (fun d => (d < x)%nat) ds -> ds <> [] ->
  let equal := same_bytes (blocks (content t) lba (Z.to_nat m)) old in
  exists t',
    if (losses fs <? length ds)%nat
    then along (t, fs) (failover ds c) (t', skipn (Datatypes.S (losses fs)) fs)
           (if equal && (negb (existsb answer_lost (firstn (losses fs) fs)) || same_bytes new old) then Ok PNone
            else Err (EAsiCheckCondition (pad 255 sense))) /\
         forall j, 0 <= j < n -> content t' j = if equal then written bs lba m new (content t) j else content t j
    else along (t, fs) (failover ds c) (t', skipn (length ds) fs) (Err loss) /\
         forall j, 0 <= j < n -> content t' j =
           if equal && existsb answer_lost (firstn (length ds) fs) then written bs lba m new (content t) j else content t j.
Proof.
  intros ds fs t Fd Ne. destruct compare_step as (k & P & J & Mo & S).
  assert (H : forall t, exists t1 a, tgt t (command_of k) (data_out k) = (t1, a) /\
    (if same_bytes (blocks (content t) lba (Z.to_nat m)) old
     then forall j, 0 <= j < n -> content t1 j = written bs lba m new (content t) j
     else forall j, 0 <= j < n -> content t1 j = content t j)).
  { intro t0. destruct (S t0) as (t1 & a & E & _ & K). exists t1, a. split; [exact E|]. destruct (same_bytes _ old); tauto. }
  cbv zeta. destruct (Nat.ltb_spec (losses fs) (length ds)) as [Lt|Ge].
  - set (t1 := unanswered tgt k (firstn (losses fs) fs) t).
    pose proof (unanswered_compare k H (firstn (losses fs) fs) t) as S1. fold t1 in S1.
    pose proof (failover_works tgt x padded loss Loss c k P J Mo) as V.
    match type of V with ?H -> _ => assert (HV : H) end.
    { intros t0 t2 a E. destruct (S t0) as (t3 & a3 & E3 & O & _). congruence. }
    specialize (V HV ds fs t Fd Lt). cbv zeta in V. fold t1 in V. destruct (S t1) as (t2 & a & E & _ & Sn).
    rewrite E in V. cbn [fst snd] in V. exists t2.
    destruct (same_bytes (blocks (content t) lba (Z.to_nat m)) old) eqn:Eq; cbn [andb] in S1 |- *.
    + destruct (existsb answer_lost (firstn (losses fs) fs)) eqn:Ex; cbn [negb orb].
      * rewrite (blocks_new (content t) t1 S1) in Sn. destruct (same_bytes new old) eqn:En.
        -- destruct Sn as [Sn K]. rewrite Sn in V. split; [apply V; left; eauto|]. intros j Hj. rewrite K by exact Hj.
           rewrite (DiskFacts.written_ext bs lba m new _ (written bs lba m new (content t))) by (apply S1; exact Hj).
           apply written_again.
        -- destruct Sn as (St & Sn & K). rewrite Sn in V. split; [apply V; right; exact St|]. intros j Hj. rewrite K, S1; auto.
      * rewrite (blocks_ext n (Z.to_nat m) (content t1) (content t) lba L ltac:(lia) S1), Eq in Sn. destruct Sn as [Sn K].
        rewrite Sn in V. split; [apply V; left; eauto|]. intros j Hj. rewrite K by exact Hj. apply DiskFacts.written_ext. apply S1. exact Hj.
    + rewrite (blocks_ext n (Z.to_nat m) (content t1) (content t) lba L ltac:(lia) S1), Eq in Sn. destruct Sn as (St & Sn & K).
      rewrite Sn in V. split; [apply V; right; exact St|]. intros j Hj. rewrite K, S1; auto.
  - exists (unanswered tgt k (firstn (length ds) fs) t). split; [apply failover_fails; auto|].
    intros j Hj. apply unanswered_compare; auto.
Qed.
End FailoverCompare.

(** * On the four systems *)

Section OnSystems.
Context {A D : Type} (sys : system (A * D)) (loss : exn) (ta : target A) (td : target D) (ca : A -> Z -> bytes) (cd : D -> Z -> bytes).
Context (bs n bs' n' : Z) (ma md : bytes).
Hypothesis L : raises_when_gone sys loss.
Hypothesis RA : reports_capacity ta ca bs n ma.
Hypothesis RD : reports_capacity td cd bs' n' md.
Hypothesis B : 1 <= bs < 2 ^ 32.
Hypothesis B' : 1 <= bs' < 2 ^ 32.
Hypothesis N : 1 <= n <= 2 ^ 64.
Hypothesis N' : 1 <= n' <= 2 ^ 64.

Lemma copy_refused_runs : forall rd wr chunk x m a d, (2 <= x)%nat -> ready sys x m (a, d) -> bs <> bs' \/ n' < n ->
  exists m' a' d', sync_wait_ends (job_coroutine sys (two_devices ta td) (copy_disk rd wr chunk)) m m' (Threw EValue) /\ ready sys x m' (a', d') /\
    (forall k, 0 <= k < n -> ca a' k = ca a k) /\ (forall k, 0 <= k < n' -> cd d' k = cd d k).
Proof.
  intros rd wr chunk x m a d X R H.
  destruct (copy_sizes ta td ca cd bs n bs' n' ma md rd wr chunk x (pads sys) loss RA RD B B' N N' X a d) as (a1 & d1 & K1 & K2 & S).
  replace ((bs =? bs') && (n <=? n')) with false in S by (symmetry; apply andb_false_iff; rewrite Z.eqb_neq, Z.leb_gt; exact H).
  destruct (jobs _ sys loss x (two_devices ta td) _ _ _ _ m L (S _ _ (hp_fail _ _ _ _ _ _)) R) as (m' & E & R'). eauto 8.
Qed.
End OnSystems.

Section OnSystems2.
Context {A D : Type} (sys : system (A * D)) (loss : exn) (ta : target A) (td : target D) (ca : A -> Z -> bytes) (cd : D -> Z -> bytes).
Context (bs n n' : Z) (bad : Z -> bool) (sense ma md : bytes).
Hypothesis L : raises_when_gone sys loss.
Hypothesis HA : flawed_disk ta ca bs n bad sense.
Hypothesis HD : block_device td cd bs n'.
Hypothesis RA : reports_capacity ta ca bs n ma.
Hypothesis RD : reports_capacity td cd bs n' md.
Hypothesis B : 1 <= bs < 2 ^ 32.
Hypothesis N : 1 <= n <= n'.
Hypothesis N' : n' <= 2 ^ 64.
Context (rd : reader) (wr : writer) (chunk : Z).
Hypothesis Rd : reads_up_to rd bs n chunk.
Hypothesis Wr : writes_up_to wr bs n' chunk.
Hypothesis C : 1 <= chunk.
Hypothesis Sm : chunk * bs < 2 ^ 32.

Lemma copy_start : forall x m a d, (2 <= x)%nat -> ready sys x m (a, d) ->
  exists a1 d1, (forall k, 0 <= k < n -> ca a1 k = ca a k) /\ (forall k, 0 <= k < n' -> cd d1 k = cd d k) /\
  forall a' d' r, happens x (two_devices ta td) (pads sys) loss (a1, d1) (copying rd wr bs (extents 0 n chunk)) (a', d') r ->
    exists m', sync_wait_ends (job_coroutine sys (two_devices ta td) (copy_disk rd wr chunk)) m m' (shown r) /\ ready sys x m' (a', d').
Proof.
  intros x m a d X R.
  destruct (copy_sizes ta td ca cd bs n bs n' ma md rd wr chunk x (pads sys) loss RA RD B B ltac:(lia) ltac:(lia) X a d) as (a1 & d1 & K1 & K2 & S).
  rewrite Z.eqb_refl in S. replace (n <=? n') with true in S by (symmetry; apply Z.leb_le; lia). cbn [andb] in S.
  exists a1, d1. split; [exact K1|]. split; [exact K2|]. intros a' d' r H.
  exact (jobs _ sys loss x (two_devices ta td) _ _ _ _ m L (S _ _ H) R).
Qed.

Lemma copy_runs : forall x m a d, (2 <= x)%nat -> ready sys x m (a, d) -> (forall k, 0 <= k < n -> bad k = false) ->
  exists m' a' d', sync_wait_ends (job_coroutine sys (two_devices ta td) (copy_disk rd wr chunk)) m m' (shown (Ok PNone)) /\ ready sys x m' (a', d') /\
    (forall k, 0 <= k < n -> ca a' k = ca a k) /\ (forall k, 0 <= k < n' -> cd d' k = if k <? n then ca a k else cd d k).
Proof.
  intros x m a d X R G. destruct (copy_start x m a d X R) as (a1 & d1 & K1 & K2 & S).
  destruct (copy_all ta td ca cd bs n n' bad sense rd wr chunk x (pads sys) loss HA HD B ltac:(lia) ltac:(lia) Rd Wr C Sm X a1 d1 G) as (a2 & d2 & E & K3 & K4).
  destruct (S _ _ _ E) as (m' & E' & R'). exists m', a2, d2. split; [exact E'|]. split; [exact R'|].
  split; intros k Hk; [rewrite K3, K1; auto|]. rewrite K4 by exact Hk. destruct (Z.ltb_spec k n); [apply K1; lia|apply K2; exact Hk].
Qed.

Lemma copy_until_runs : forall x m a d b, (2 <= x)%nat -> ready sys x m (a, d) -> 0 <= b < n -> bad b = true -> (forall k, 0 <= k < b -> bad k = false) ->
  exists m' a' d', sync_wait_ends (job_coroutine sys (two_devices ta td) (copy_disk rd wr chunk)) m m'
      (shown (Err (EAsiCheckCondition (pad 255 sense)))) /\ ready sys x m' (a', d') /\
    (forall k, 0 <= k < n -> ca a' k = ca a k) /\
    (forall k, 0 <= k < n' -> cd d' k = if k <? chunk * (b / chunk) then ca a k else cd d k).
Proof.
  intros x m a d b X R Hb Bb G. destruct (copy_start x m a d X R) as (a1 & d1 & K1 & K2 & S).
  destruct (copy_until ta td ca cd bs n n' bad sense rd wr chunk x (pads sys) loss HA HD B ltac:(lia) ltac:(lia) Rd Wr C Sm X a1 d1 b Hb Bb G) as (a2 & d2 & E & K3 & K4).
  destruct (S _ _ _ E) as (m' & E' & R'). exists m', a2, d2. split; [exact E'|]. split; [exact R'|].
  split; intros k Hk; [rewrite K3, K1; auto|]. rewrite K4 by exact Hk.
  pose proof (Z.mul_div_le b chunk ltac:(lia)). destruct (Z.ltb_spec k (chunk * (b / chunk))); [apply K1; lia|apply K2; exact Hk].
Qed.
End OnSystems2.

Section OnPaths.
Context {T : Type} (sys : system (T * list fault)) (loss : exn) (tgt : target T) (content : T -> Z -> bytes) (bs n : Z).
Hypothesis L : raises_when_gone sys loss.
Context (x : nat) (ds : list nat) (m : machine sys) (t : T) (fs : list fault).
Hypothesis R : ready sys x m (t, fs).
Hypothesis Fd : Forall (fun d => (d < x)%nat) ds.
Hypothesis Ne : ds <> [].
Let paths : nat -> target (T * list fault) := fun _ => unreliable tgt.

Lemma paths_read : 1 <= bs -> block_device tgt content bs n -> forall c lba q, read_of c lba q bs -> proper c -> arguments_fit c -> lba + q <= n -> q * bs < 2 ^ 32 ->
  exists m' t', sync_wait_ends (job_coroutine sys paths (failover ds c)) m m'
      (shown (if (losses fs <? length ds)%nat then Ok (if q =? 0 then PNone else PBytes (blocks (content t) lba (Z.to_nat q))) else Err loss)) /\
    ready sys x m' (t', skipn (Nat.min (Datatypes.S (losses fs)) (length ds)) fs) /\ forall k, 0 <= k < n -> content t' k = content t k.
Proof.
  intros B Dk c lba q Rd P F C Sm.
  destruct (failover_read tgt content bs n x (pads sys) loss (loss_other _ _ _ L) B Dk c lba q ds fs t Rd P F C Sm Fd Ne) as (t' & S & H).
  destruct (Nat.ltb_spec (losses fs) (length ds)) as [Lt|Ge]; destruct (jobs _ sys loss x paths _ _ _ _ m L H R) as (m' & E & R');
    exists m', t'; (split; [exact E|]); (split; [|exact S]).
  - rewrite Nat.min_l by lia. exact R'.
  - rewrite Nat.min_r by lia. exact R'.
Qed.

Lemma paths_write : 1 <= bs -> block_device tgt content bs n -> forall c lba data, write_of c lba data bs -> proper c -> arguments_fit c ->
  lba + zlen data / bs <= n -> zlen data < 2 ^ 32 ->
  exists m' t', sync_wait_ends (job_coroutine sys paths (failover ds c)) m m'
      (shown (if (losses fs <? length ds)%nat then Ok PNone else Err loss)) /\
    ready sys x m' (t', skipn (Nat.min (Datatypes.S (losses fs)) (length ds)) fs) /\
    forall k, 0 <= k < n -> content t' k =
      if (losses fs <? length ds)%nat || existsb answer_lost (firstn (length ds) fs) then written bs lba (zlen data / bs) data (content t) k else content t k.
Proof.
  intros B Dk c lba data Wr P F C Sm.
  destruct (failover_write tgt content bs n x (pads sys) loss (loss_other _ _ _ L) B Dk c lba data ds fs t Wr P F C Sm Fd Ne) as (t' & H).
  destruct (Nat.ltb_spec (losses fs) (length ds)) as [Lt|Ge]; destruct H as [H K]; destruct (jobs _ sys loss x paths _ _ _ _ m L H R) as (m' & E & R');
    exists m', t'; (split; [exact E|]); (split; [|exact K]).
  - rewrite Nat.min_l by lia. exact R'.
  - rewrite Nat.min_r by lia. exact R'.
Qed.

Lemma paths_session : 1 <= bs -> block_device tgt content bs n -> forall d cmds d' vs, disk_session bs n d cmds d' (map Ok vs) ->
  (forall k, 0 <= k < n -> content t k = d k) -> fewer_losses (length ds) fs ->
  exists m' t' fs', sync_wait_ends (job_coroutine sys paths (failing_over ds cmds [])) m m' (shown (Ok (PList vs))) /\
    ready sys x m' (t', fs') /\ forall k, 0 <= k < n -> content t' k = d' k.
Proof.
  intros B Dk d cmds d' vs S E Fw.
  destruct (failover_session tgt content bs n x (pads sys) loss (loss_other _ _ _ L) B Dk ds Fd Ne d cmds d' _ S vs eq_refl t fs [] E Fw) as (t' & fs' & H & _ & K).
  destruct (jobs _ sys loss x paths _ _ _ _ m L H R) as (m' & Ev & R'). exists m', t', fs'. auto.
Qed.

Lemma paths_compare : forall sense, 1 <= bs < 2 ^ 31 -> compare_disk (fun _ => tgt) content bs n sense ->
  forall lba q old new, 0 <= lba < 2 ^ 64 -> 0 <= q < 2 ^ 8 -> lba + q <= n -> 2 * q * bs < 2 ^ 32 -> zlen old = q * bs -> zlen new = q * bs ->
  let equal := same_bytes (blocks (content t) lba (Z.to_nat q)) old in
  let unnoticed := existsb answer_lost (firstn (Nat.min (losses fs) (length ds)) fs) in
  exists m' t', sync_wait_ends (job_coroutine sys paths (failover ds (CompareAndWrite lba (old ++ new) q bs []))) m m'
      (shown (if (losses fs <? length ds)%nat
              then if equal && (negb unnoticed || same_bytes new old) then Ok PNone else Err (EAsiCheckCondition (pad 255 sense))
              else Err loss)) /\
    ready sys x m' (t', skipn (Nat.min (Datatypes.S (losses fs)) (length ds)) fs) /\
    forall k, 0 <= k < n -> content t' k =
      if equal && ((losses fs <? length ds)%nat || unnoticed) then written bs lba q new (content t) k else content t k.
Proof.
  intros sense B Dk lba q old new Lb Q C Sm Zo Zn. cbv zeta.
  destruct (failover_compare tgt content bs n sense x (pads sys) loss (loss_other _ _ _ L) B Dk lba q old new (proj1 Lb) Q C (proj2 Lb) Sm Zo Zn ds fs t Fd Ne) as (t' & H).
  destruct (Nat.ltb_spec (losses fs) (length ds)) as [Lt|Ge]; destruct H as [H K]; destruct (jobs _ sys loss x paths _ _ _ _ m L H R) as (m' & E & R');
    exists m', t'.
  - rewrite Nat.min_l with (m := length ds) by lia. split; [exact E|]. rewrite Nat.min_l by lia. split; [exact R'|].
    intros k Hk. rewrite K by exact Hk. cbn [orb]. rewrite andb_true_r. reflexivity.
  - rewrite Nat.min_r with (m := length ds) by lia. split; [exact E|]. rewrite Nat.min_r by lia. split; [exact R'|]. exact K.
Qed.
End OnPaths.

Lemma job_part : forall T (sys : system T) loss n tgt d t p t' r m, raises_when_gone sys loss -> ready sys n m t -> (d < n)%nat ->
  does (tgt d) (pads sys) t p t' r -> exists m', sync_wait_ends (job_coroutine sys tgt (part d p)) m m' (shown r) /\ ready sys n m' t'.
Proof. intros. eapply jobs; eauto. apply part_happens; auto. Qed.

Lemma compare_misleads : forall T (sys : system (T * list fault)) loss tgt content bs capacity sense lba n old new t fs x m d1 d2,
  raises_when_gone sys loss -> compare_disk (fun _ => tgt) content bs capacity sense -> 1 <= bs < 2 ^ 31 -> 0 <= lba < 2 ^ 64 -> 0 <= n < 2 ^ 8 ->
  lba + n <= capacity -> 2 * n * bs < 2 ^ 32 -> zlen new = n * bs -> (d1 < x)%nat -> (d2 < x)%nat ->
  blocks (content t) lba (Z.to_nat n) = old -> new <> old -> ready sys x m (t, AnswerLost :: Works :: fs) ->
  exists m' t', sync_wait_ends (job_coroutine sys (fun _ => unreliable tgt) (failover [d1; d2] (CompareAndWrite lba (old ++ new) n bs []))) m m'
      (shown (Err (EAsiCheckCondition (pad 255 sense)))) /\ ready sys x m' (t', fs) /\
    forall k, 0 <= k < capacity -> content t' k = written bs lba n new (content t) k.
Proof.
  intros T sys loss tgt content bs capacity sense lba n old new t fs x m d1 d2 L Dk B Lb Q C Sm Zn D1 D2 Eq Ne R.
  assert (Zo : zlen old = n * bs).
  { rewrite <- Eq, (blocks_length bs capacity); [f_equal; lia|lia|lia|].
    intros k Hk. apply (bd_block _ _ _ _ (cd_block _ _ _ _ _ Dk 0%nat)). exact Hk. }
  destruct (paths_compare sys loss tgt content bs capacity L x [d1; d2] m t _ R ltac:(repeat constructor; auto) ltac:(discriminate) sense B Dk
    lba n old new Lb Q C Sm Zo Zn) as (m' & t' & E & R' & K).
  rewrite Eq in *. replace (same_bytes old old) with true in * by (symmetry; apply same_bytes_true; reflexivity).
  replace (same_bytes new old) with false in * by (symmetry; apply not_true_is_false; intro H; apply same_bytes_true in H; auto).
  cbn in E, R', K. exists m', t'. auto.
Qed.
