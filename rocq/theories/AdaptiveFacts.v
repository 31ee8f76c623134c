(** Lemmas on user programs that decide from results what to do next. *)
From Coq Require Import String ZArith List Bool Lia PeanoNat.
From Verif Require Import Base BaseFacts Gen SpecGen GenFacts Executer SpecCall ExecFacts
  OsCommon OsLinux OsSolaris OsAix OsWin32 SpecSg SpecDrivers SpecSession LinuxFacts SessionFacts
  Instruct Command CdbPrimary SpecDevice SpecCdb CdbPrimaryFacts CdbResponseFacts CdbAllFacts CdbPropFacts SpecExecute ExecuteFacts
  Sense SpecSense SenseFacts SpecPortable PortableFacts SpecReserve ReserveFacts SpecAdaptive.
Import ListNotations.
Local Open Scope string_scope.
Local Open Scope list_scope.
Local Open Scope Z_scope.

Definition outcome_for {H} (r : result pyval) : call_out (dval (wire H pyval)) :=
  match r with Ok v => CallReturns (yielded_value v) true | Err e => CallRaises e end.

Lemma python_yielded : forall H v, @python_value H (yielded_value v) = v.
Proof. intros H v. destruct v; reflexivity. Qed.

Lemma fresh_new : forall R W (s : executer R W), ~ In (fresh s) (map fst (cb_log s)).
Proof.
  intros R W s I. unfold fresh in I.
  assert (L : Forall (fun k => (k <= list_max (map fst (cb_log s)))%nat) (map fst (cb_log s))) by (apply list_max_le; lia).
  rewrite Forall_forall in L. apply L in I. lia.
Qed.

Lemma seen_nice : forall padded c k a, seen padded c k a =
  match nice_expected padded k a with RespExn e => Err e | RespData d => yields (constructed c) d end.
Proof.
  intros padded c k a. unfold seen, nice_expected. destruct (a_status a =? 0); [reflexivity|].
  destruct (a_status a =? 2); reflexivity.
Qed.

Section Runs.
Context {R W H T : Type} (os : os_layer R W (wire H pyval) scsi_command) (tgt : target T).

Lemma execute_evaluates : forall expected me o c a (s s' : executer R W), request o = Ok c ->
  call_evaluates (call os me c) s s' (outcome_of (expected c a)) ->
  evaluates (execute os me o) (Send VNone) false s s' (outcome_for (result_of expected o c a)).
Proof.
  intros expected me o c a s s' E C. unfold result_of.
  destruct (expected c a) as [d|e]; cbn in C.
  - assert (X : exists v, result_datagram v = Some d /\ call_evaluates (call os me c) s s' (CallReturns v true)).
    { destruct d; eexists; (split; [|exact C]); reflexivity. }
    destruct X as [v [V X]]. apply call_as_callee in X.
    destruct (o_finish o (o_attrs o) d) as [p|e] eqn:F; cbn [outcome_for].
    + eapply ev_call; [cbn; rewrite E; reflexivity|exact X|].
      eapply ev_value; [cbn; rewrite V, F; reflexivity|apply yielded_not_exn|].
      apply ev_finish; [reflexivity|apply yielded_not_exn].
    + eapply ev_call; [cbn; rewrite E; reflexivity|exact X|].
      apply ev_raise. cbn. rewrite V, F. reflexivity.
  - eapply ev_call_raise; [cbn; rewrite E; reflexivity|apply call_as_callee; exact C|]. apply ev_raise. reflexivity.
Qed.

(** The input of a program that starts does not matter. *)
Lemma coroutine_input : forall p i j (s : executer R W), resume (coroutine os p) i s = resume (coroutine os p) j s.
Proof.
  fix IH 1. intros p i j s. destruct p as [v|e|c next|q next]; cbn; try reflexivity.
  destruct (constructed c) as [o|e]; [reflexivity|]. apply IH.
Qed.

(** Calling a generator and going on with its result or exception. *)
Lemma called : forall g c next i pl (s s1 s2 : executer R W) r o,
  resume g i s = (s, Yield (YGen c) (Gen (fun i' s' => resume (coroutine os (next (caught i'))) i' s'))) ->
  evaluates c (Send VNone) false s s1 (outcome_for r) ->
  (forall j q, evaluates (coroutine os (next r)) j q s1 s2 o) ->
  evaluates g i pl s s2 o.
Proof.
  intros g c next i pl s s1 s2 r o E C N.
  assert (X : forall j q, caught j = r -> evaluates (Gen (fun i' s' => resume (coroutine os (next (caught i'))) i' s')) j q s1 s2 o).
  { intros j q J. specialize (N j q). inversion N; subst.
    - apply ev_finish; auto.
    - eapply ev_raise. eassumption.
    - eapply ev_value; eauto.
    - eapply ev_call; eauto.
    - eapply ev_call_raise; eauto.
    - eapply ev_token; eauto. }
  destruct r as [v|e]; cbn [outcome_for] in C.
  - eapply ev_call; [exact E|exact C|]. apply X. cbn. rewrite python_yielded. reflexivity.
  - eapply ev_call_raise; [exact E|exact C|]. apply X. reflexivity.
Qed.

Context (expected : scsi_command -> answer -> resp) (Idle : executer R W -> T -> Prop).
Context (okc : scsi_command -> Prop) (oka : answer -> Prop) (step : steps os tgt expected Idle okc oka) (padded : bool).
Context (Hk : forall k, zlen (command_of k) <= 16 -> moderate k -> okc k).
Context (Ha : forall a, nice a -> oka a) (He : forall k a, nice a -> expected k a = nice_expected padded k a).

Lemma runs : forall t p t' r, does tgt padded t p t' r -> forall s, Idle s t ->
  exists s', (forall i q, evaluates (coroutine os p) i q s s' (outcome_for r)) /\ Idle s' t'.
Proof.
  intros t p t' r D. induction D as [t v|t e|t c next e t' r J D IH|t c next k t1 a t' r P J M G A D IH|t q next t1 rq t' r D1 IH1 D2 IH2];
    intros s Hi.
  - exists s. split; [|exact Hi]. intros i q. eapply ev_value; [reflexivity|apply yielded_not_exn|].
    apply ev_finish; [reflexivity|apply yielded_not_exn].
  - exists s. split; [|exact Hi]. intros i q. apply ev_raise. reflexivity.
  - destruct (IH s Hi) as (s' & E & Hi'). exists s'. split; [|exact Hi']. intros i q.
    unfold issued in J. destruct (constructed c) as [o|e'] eqn:C; cbn [bind] in J.
    + eapply (called _ (execute os (fresh s) o) next i q s s s' (Err e)).
      * cbn. rewrite C. reflexivity.
      * apply ev_raise. cbn. rewrite J. reflexivity.
      * exact E.
    + injection J as ->. specialize (E i q).
      assert (X : resume (coroutine os (Do c next)) i s = resume (coroutine os (next (Err e))) i s) by (cbn; rewrite C; reflexivity).
      inversion E; subst.
      * apply ev_finish; [rewrite X|]; auto.
      * eapply ev_raise. rewrite X. eassumption.
      * eapply ev_value; [rewrite X| |]; eauto.
      * eapply ev_call; [rewrite X| |]; eauto.
      * eapply ev_call_raise; [rewrite X| |]; eauto.
      * eapply ev_token; [rewrite X| | |]; eauto.
  - destruct (issued_object c k J) as (o & C & Q). pose proof (issued_spec c P) as S. rewrite J in S. destruct S as [_ S].
    assert (O : okc k) by (apply Hk; auto; eapply cdb_at_most_16; eauto).
    destruct (step s t (fresh s) k t1 a Hi O G (Ha a A) (fresh_new _ _ s)) as (s1 & E1 & E2 & _).
    destruct (IH s1 E2) as (s' & E & Hi'). exists s'. split; [|exact Hi']. intros i q.
    eapply (called _ (execute os (fresh s) o) next i q s s1 s' (seen padded c k a)).
    + cbn. rewrite C. reflexivity.
    + replace (seen padded c k a) with (result_of expected o k a); [eapply execute_evaluates; eauto|].
      rewrite seen_nice. unfold result_of. rewrite He by exact A. rewrite C. reflexivity.
    + exact E.
  - destruct (IH1 s Hi) as (s1 & E1 & Hi1). destruct (IH2 s1 Hi1) as (s2 & E2 & Hi2). exists s2. split; [|exact Hi2].
    intros i q0. eapply (called _ (coroutine os q) next i q0 s s1 s2 rq); [reflexivity|apply E1|exact E2].
Qed.

Lemma runs_sync : forall t p t' r s, does tgt padded t p t' r -> Idle s t ->
  exists s', sync_wait_ends (coroutine os p) s s' (shown r) /\ Idle s' t'.
Proof.
  intros t p t' r s D Hi. destruct (runs t p t' r D s Hi) as (s' & E & Hi'). exists s'. split; [|exact Hi'].
  destruct r as [v|e]; cbn [shown outcome_for] in *.
  - apply sync_wait_value. apply E.
  - apply sync_wait_raise. apply E.
Qed.
End Runs.

Lemma adaptive : forall T (sys : system T) tgt t p t' r s, one_of_four sys -> does tgt (pads sys) t p t' r -> idle sys s t ->
  exists s', sync_wait_ends (coroutine (os_of sys tgt) p) s s' (shown r) /\ idle sys s' t'.
Proof.
  intros T sys tgt t p t' r s F. destruct F as [timeout|fails timeout Hf|timeout use_ctypes|];
    cbn [pads os_of idle linux_system solaris_system aix_system win_system mem req wired] in *; intros D Hi.
  - eapply (runs_sync _ _ _ _ _ _ (linux_step (A := pyval) parse_sense tgt timeout) true); eauto using fits_linux, nice_linux.
    intros x (_ & Hc & _) _. apply conforming_parses. auto.
  - eapply (runs_sync _ _ _ _ _ _ (solaris_step (A := pyval) parse_sense tgt fails timeout) true); eauto using fits_solaris, nice_solaris.
    intros x (Hh & Hc & Hs). split; [|split; [apply Hf; exact Hh|]].
    + unfold byte_status. lia.
    + intros _. apply conforming_parses. auto.
  - eapply (runs_sync _ _ _ _ _ _ (aix_step (A := pyval) parse_sense tgt timeout use_ctypes) true); eauto using fits_aix, nice_aix.
    intros x (_ & Hc & _) _. apply conforming_parses. auto.
  - eapply (runs_sync _ _ _ _ _ _ (win_step (A := pyval) parse_sense tgt) false); eauto using fits_win, nice_win.
    intros x (Hh & Hc & _). split; auto. intros _. apply conforming_parses. auto.
Qed.

Lemma adaptive_only : forall T (sys : system T) tgt t p t' r s s2 out, one_of_four sys -> does tgt (pads sys) t p t' r -> idle sys s t ->
  sync_wait_ends (coroutine (os_of sys tgt) p) s s2 out -> out = shown r /\ idle sys s2 t'.
Proof.
  intros T sys tgt t p t' r s s2 out F D Hi E. destruct (adaptive T sys tgt t p t' r s F D Hi) as (s' & E' & Hi').
  destruct (sync_wait_det _ _ _ _ _ _ E E') as [-> ->]. auto.
Qed.

(** * Programs in place of calls *)

Lemma does_inlined : forall T (tgt : target T) padded p next t t1 rp t' r, does tgt padded t p t1 rp -> does tgt padded t1 (next rp) t' r ->
  does tgt padded t (inlined p next) t' r.
Proof.
  intros T tgt padded p next t t1 rp t' r D. revert next t' r. induction D; intros nx tx rx N; cbn [inlined]; auto.
  - eapply does_refused; eauto.
  - eapply does_command; eauto.
  - eapply does_call; eauto.
Qed.

Lemma inlined_does : forall T (tgt : target T) padded p next t t' r, does tgt padded t (inlined p next) t' r ->
  exists t1 rp, does tgt padded t p t1 rp /\ does tgt padded t1 (next rp) t' r.
Proof.
  intros T tgt padded. fix IH 1. intros p next t t' r D. destruct p as [v|e|c next'|q next']; cbn [inlined] in D.
  - exists t, (Ok v). split; [constructor|exact D].
  - exists t, (Err e). split; [constructor|exact D].
  - inversion D; subst.
    + destruct (IH (next' (Err e)) next t t' r ltac:(assumption)) as (t1 & rp & A & B). exists t1, rp.
      split; [eapply does_refused|]; eauto.
    + destruct (IH (next' (seen padded c k a)) next t1 t' r ltac:(assumption)) as (t2 & rp & A & B). exists t2, rp.
      split; [eapply does_command|]; eauto.
  - inversion D; subst.
    destruct (IH (next' rq) next t1 t' r ltac:(assumption)) as (t2 & rp & A & B). exists t2, rp. split; [eapply does_call|]; eauto.
Qed.

Lemma does_det : forall T (tgt : target T) padded t p t1 r1, does tgt padded t p t1 r1 -> forall t2 r2, does tgt padded t p t2 r2 ->
  t1 = t2 /\ r1 = r2.
Proof.
  intros T tgt padded t p t1 r1 D. induction D as [t v|t e|t c next e t' r J D IH|t c next k tt a t' r P J M G A D IH|t q next tt rq t' r D1 IH1 D2 IH2];
    intros t2 r2 D'; inversion D'; subst; auto; try congruence.
  - assert (e0 = e) by congruence. subst. auto.
  - assert (k0 = k) by congruence. subst. rewrite G in *.
    match goal with X : (_, _) = (_, _) |- _ => injection X as <- <- end. auto.
  - match goal with X : does tgt padded t q _ _ |- _ => destruct (IH1 _ _ X) as [<- <-] end. auto.
Qed.

(** * Some programs *)

Lemma does_finish : forall T (tgt : target T) padded t r, does tgt padded t (finish r) t r.
Proof. intros. destruct r; constructor. Qed.

Lemma retry_works : forall T (tgt : target T) padded c k n m t t' a v, proper c -> issued c = Ok k -> moderate k -> (m <= n)%nat ->
  good_after tgt k m t t' a -> seen padded c k a = Ok v -> does tgt padded t (retried n c) t' (Ok v).
Proof.
  intros T tgt padded c k n. induction n as [|n IH]; intros m t t' a v P J M L G V; inversion G; subst; try lia; cbn [retried].
  - eapply does_command; eauto. rewrite V. apply does_finish.
  - eapply does_command; eauto. rewrite V. apply does_finish.
  - eapply does_command; eauto. unfold seen.
    match goal with X : a_status _ = 2 |- _ => rewrite X end. cbn [Z.eqb].
    match goal with X : good_after tgt k ?m1 _ _ _ |- _ => match type of L with (Datatypes.S m1 <= _)%nat => eapply (IH m1); eauto; lia end end.
Qed.

Lemma ordinary_good : forall d, ordinary (good d).
Proof. intro d. exact (nice_good d). Qed.

Lemma pr_in_issued : forall sa alloc, 0 <= sa < 2 ^ 5 -> 8 <= alloc < 2 ^ 16 ->
  exists cdb, issued (PrIn sa alloc) = Ok (ReadCmd cdb alloc) /\ interpret cdb = Some (OpPrIn sa alloc).
Proof.
  intros sa alloc S A. destruct (issued_cases (PrIn sa alloc) Logic.I) as [I _]. destruct I as (o & k & C & Q & J); [cbn; lia|].
  destruct (asks_ok _ _ _ _ _ (pr_in_spec sa alloc) J) as (_ & cdb & -> & X). eauto.
Qed.

Lemma pr_in_too_long : forall sa alloc, 2 ^ 16 <= alloc -> exists e, issued (PrIn sa alloc) = Err e.
Proof.
  intros sa alloc A. pose proof (issued_spec (PrIn sa alloc) Logic.I) as S. destruct (issued (PrIn sa alloc)) as [k|e]; [|eauto].
  exfalso. destruct S as [S _]. cbn [arguments_fit] in S. lia.
Qed.

Section Fetch.
Context {T : Type} (tgt : target T) (padded : bool).

Lemma keys_seen : forall g keys cdb alloc, 0 <= g < 2 ^ 32 -> Forall (fun x => 0 <= x < 2 ^ 64) keys -> 8 * zlen keys < 2 ^ 32 -> 8 <= alloc ->
  seen padded (PrIn 0 alloc) (ReadCmd cdb alloc) (good (firstn (Z.to_nat alloc) (keys_data g keys))) =
    Ok (keys_object g (zlen keys) (if 8 + 8 * zlen keys <=? alloc then PList (map PInt keys) else PNone)) /\
  required_allocation_length (keys_object g (zlen keys) (if 8 + 8 * zlen keys <=? alloc then PList (map PInt keys) else PNone)) =
    Ok (8 + 8 * zlen keys).
Proof.
  intros g keys cdb alloc G K N A.
  assert (L : length (keys_data g keys) = (8 + 8 * length keys)%nat) by apply keys_data_length.
  rewrite seen_nice.
  destruct (got_data padded cdb alloc (keys_data g keys)) as (m & -> & _); [lia|unfold zlen; rewrite L; lia|].
  cbn [constructed].
  destruct (read_keys_needed alloc g keys (zeros m) (Z.to_nat alloc)) as [E F]; auto; try lia; [apply zeros_ok|].
  assert (X : (if (Z.to_nat alloc <? length (keys_data g keys))%nat then PNone else PList (map PInt keys)) =
              if 8 + 8 * zlen keys <=? alloc then PList (map PInt keys) else PNone).
  { rewrite L. unfold zlen.
    destruct (Nat.ltb_spec (Z.to_nat alloc) (8 + 8 * length keys)), (Z.leb_spec (8 + 8 * Z.of_nat (length keys)) alloc); auto; lia. }
  cbv zeta in E, F. rewrite X in *. split; [exact E|]. rewrite F. f_equal. unfold zlen at 1. rewrite L. unfold zlen. lia.
Qed.

Lemma fetch_keys : forall g keys first t, reports_keys tgt g keys -> 8 <= first < 2 ^ 16 -> 8 + 8 * zlen keys < 2 ^ 16 ->
  exists t', does tgt padded t (fetch_pr 0 first) t' (Ok (keys_object g (zlen keys) (PList (map PInt keys)))).
Proof.
  intros g keys first t [(G & K & N) Ans] F S. unfold fetch_pr.
  destruct (pr_in_issued 0 first ltac:(lia) F) as (cdb & J & X).
  destruct (Ans t cdb [] first X) as (t1 & E1).
  destruct (keys_seen g keys cdb first G K N ltac:(lia)) as [V Q].
  destruct (Z.leb_spec (8 + 8 * zlen keys) first) as [Le|Gt].
  - exists t1. eapply does_command; [exact Logic.I|exact J|cbn [moderate]; lia|exact E1|apply ordinary_good|].
    rewrite V, Q. replace (8 + 8 * zlen keys <=? first) with true by (symmetry; apply Z.leb_le; lia). constructor.
  - destruct (pr_in_issued 0 (8 + 8 * zlen keys) ltac:(lia) ltac:(unfold zlen in *; lia)) as (cdb2 & J2 & X2).
    destruct (Ans t1 cdb2 [] _ X2) as (t2 & E2). exists t2.
    eapply does_command; [exact Logic.I|exact J|cbn [moderate]; lia|exact E1|apply ordinary_good|].
    rewrite V, Q. replace (8 + 8 * zlen keys <=? first) with false by (symmetry; apply Z.leb_gt; lia).
    eapply does_command; [exact Logic.I|exact J2|cbn [moderate]; lia|exact E2|apply ordinary_good|].
    destruct (keys_seen g keys cdb2 (8 + 8 * zlen keys) G K N ltac:(unfold zlen; lia)) as [V2 _]. rewrite V2.
    rewrite Z.leb_refl. constructor.
Qed.

Lemma fetch_too_many : forall g keys first t, reports_keys tgt g keys -> 8 <= first < 2 ^ 16 -> 2 ^ 16 <= 8 + 8 * zlen keys ->
  exists t' e cdb, interpret cdb = Some (OpPrIn 0 first) /\ fst (tgt t cdb []) = t' /\ does tgt padded t (fetch_pr 0 first) t' (Err e).
Proof.
  intros g keys first t [(G & K & N) Ans] F S. unfold fetch_pr.
  destruct (pr_in_issued 0 first ltac:(lia) F) as (cdb & J & X).
  destruct (Ans t cdb [] first X) as (t1 & E1).
  destruct (keys_seen g keys cdb first G K N ltac:(lia)) as [V Q].
  destruct (pr_in_too_long 0 _ S) as (e & J2). exists t1, e, cdb. split; [exact X|]. split; [rewrite E1; reflexivity|].
  eapply does_command; [exact Logic.I|exact J|cbn [moderate]; lia|exact E1|apply ordinary_good|].
  rewrite V, Q. replace (8 + 8 * zlen keys <=? first) with false by (symmetry; apply Z.leb_gt; lia).
  eapply does_refused; [exact J2|constructor].
Qed.

Lemma full_status_class : forall alloc d v, yields (pr_in 3 alloc) d = Ok v ->
  exists l, v = PObj "PersistentReserveInReadFullStatusResponse" l.
Proof.
  intros alloc d v Y. unfold yields, pr_in in Y. destruct (assert_ (8 <=? alloc)); [|discriminate Y]. cbn [bind o_finish o_attrs] in Y.
  change (attr "service_action" _) with 3 in Y. cbn [pr_in_response] in Y. unfold parsed in Y.
  destruct d as [b|]; [|discriminate Y]. unfold unpack in Y.
  match type of Y with (do _ <- ?x; _) = _ => destruct x as [l|]; [|discriminate Y] end. cbn [bind] in Y.
  exists l. injection Y as <-. reflexivity.
Qed.

Lemma fetch_full_status : forall first t t' r, does tgt padded t (fetch_pr 3 first) t' r -> exists e, r = Err e.
Proof.
  intros first t t' r D. unfold fetch_pr in D. inversion D; subst; clear D.
  - match goal with X : does _ _ _ (Fail _) _ _ |- _ => inversion X; subst; eauto end.
  - match goal with X : does _ _ _ (match seen ?p ?c ?k ?a with _ => _ end) _ _ |- _ => destruct (seen p c k a) as [v|e] eqn:V end.
    + assert (Y : exists l, v = PObj "PersistentReserveInReadFullStatusResponse" l).
      { unfold seen in V. destruct (_ =? 0); [|destruct (_ =? 2); discriminate V]. eapply full_status_class. exact V. }
      destruct Y as (l & ->).
      match goal with X : does _ _ _ _ _ _ |- _ => cbn [required_allocation_length String.eqb Ascii.eqb Bool.eqb] in X; inversion X; subst; eauto end.
    + match goal with X : does _ _ _ (Fail _) _ _ |- _ => inversion X; subst; eauto end.
Qed.

Lemma luns_issued : forall select alloc allow, 0 <= select < 2 ^ 8 -> 0 <= alloc < 2 ^ 32 ->
  exists cdb, issued (ReportLuns select alloc allow) = Ok (ReadCmd cdb alloc) /\ interpret cdb = Some (OpReportLuns select alloc).
Proof.
  intros select alloc allow S A. destruct (issued_cases (ReportLuns select alloc allow) Logic.I) as [I _].
  destruct I as (o & k & C & Q & J); [cbn; lia|].
  destruct (asks_ok _ _ _ _ _ (report_luns_spec select alloc allow) J) as (_ & cdb & -> & X). eauto.
Qed.

Lemma luns_length_seen : forall select allow luns cdb, 8 * zlen luns < 2 ^ 32 ->
  seen padded (ReportLuns select 8 allow) (ReadCmd cdb 8) (good (firstn (Z.to_nat 8) (luns_data luns))) =
    Ok (PBytes (firstn 8 (luns_data luns))) /\
  be_val (firstn 4 (firstn 8 (luns_data luns))) = 8 * zlen luns.
Proof.
  intros select allow luns cdb N. pose proof (luns_data_length luns) as L. split.
  - rewrite seen_nice. destruct (got_data padded cdb 8 (luns_data luns)) as (m & -> & Hm); [lia|unfold zlen in *; lia|].
    assert (m = 0%nat). { destruct padded; [|exact Hm]. unfold zlen in L. lia. } subst m. replace (luns_data luns ++ zeros 0) with (luns_data luns) by (symmetry; apply app_nil_r).
    unfold yields. cbn [constructed bind report_luns o_finish o_attrs]. unfold report_luns_finish.
    change (attr "allocation_length" _) with 8. cbn [Z.leb Z.compare Pos.compare Pos.compare_cont].
    replace (zlen (firstn (Z.to_nat 8) (luns_data luns))) with 8; [reflexivity|].
    unfold zlen in *. rewrite firstn_length. lia.
  - rewrite firstn_firstn. cbn [Nat.min]. pose proof (luns_data_head luns [] N) as X. rewrite app_nil_r in X. exact X.
Qed.

(** What REPORT LUNS hands to the class when everything fits. *)
Lemma luns_seen : forall select alloc allow luns cdb, 16 <= alloc -> 8 + 8 * zlen luns <= alloc ->
  exists rest, seen padded (ReportLuns select alloc allow) (ReadCmd cdb alloc) (good (firstn (Z.to_nat alloc) (luns_data luns))) =
    yields (report_luns select alloc allow) (Some (luns_data luns ++ rest)).
Proof.
  intros select alloc allow luns cdb A N. pose proof (luns_data_length luns) as L.
  rewrite seen_nice. destruct (got_data padded cdb alloc (luns_data luns)) as (m & -> & _); [lia|unfold zlen in *; lia|].
  exists (firstn (Z.to_nat alloc - length (luns_data luns)) (zeros m)). cbn [constructed]. do 2 f_equal.
  rewrite firstn_app, firstn_all2; [reflexivity|]. unfold zlen in *. lia.
Qed.

Lemma fetch_luns_with : forall luns select allow v t, reports_luns tgt luns -> 0 <= select < 2 ^ 8 -> zlen luns < 2 ^ 29 - 1 ->
  (forall alloc rest, 16 <= alloc -> yields (report_luns select alloc allow) (Some (luns_data luns ++ rest)) = v) ->
  exists t', does tgt padded t (fetch_luns select allow) t' v.
Proof.
  intros luns select allow v t [(K & N) Ans] S C Y. unfold fetch_luns.
  destruct (luns_issued select 8 allow S ltac:(lia)) as (cdb & J & X).
  destruct (Ans t cdb [] select 8 X) as (t1 & E1).
  destruct (luns_length_seen select allow luns cdb N) as [V Q].
  set (n := Z.max 16 (8 + 8 * zlen luns)).
  destruct (luns_issued select n allow S ltac:(subst n; unfold zlen in *; lia)) as (cdb2 & J2 & X2).
  destruct (Ans t1 cdb2 [] select n X2) as (t2 & E2). exists t2.
  eapply does_command; [exact Logic.I|exact J|cbn [moderate]; lia|exact E1|apply ordinary_good|].
  rewrite V, Q. fold n.
  eapply does_command; [exact Logic.I|exact J2|cbn [moderate]; subst n; unfold zlen in *; lia|exact E2|apply ordinary_good|].
  destruct (luns_seen select n allow luns cdb2) as (rest & ->); [subst n; lia|subst n; lia|].
  rewrite Y by (subst n; lia). apply does_finish.
Qed.

Lemma fetch_luns_all : forall luns select t, reports_luns tgt luns -> 0 <= select < 2 ^ 8 -> zlen luns < 2 ^ 29 - 1 ->
  exists t', does tgt padded t (fetch_luns select true) t' (Ok (luns_object luns (map (fun x => x / 2 ^ 48) luns))).
Proof.
  intros luns select t D S C. eapply fetch_luns_with; eauto. intros alloc rest A. destruct D as [(K & N) _].
  apply report_luns_allowed; auto.
Qed.
Lemma fetch_luns_simple : forall numbers select t, let luns := map (fun n => n * 2 ^ 48) numbers in
  Forall (fun n => 0 <= n < 16384) numbers -> reports_luns tgt luns -> 0 <= select < 2 ^ 8 -> zlen luns < 2 ^ 29 - 1 ->
  exists t', does tgt padded t (fetch_luns select false) t' (Ok (luns_object luns numbers)).
Proof.
  intros numbers select t luns F D S C. eapply fetch_luns_with; eauto. intros alloc rest A.
  apply report_luns_simple; auto. destruct D as [(K & N) _]. subst luns. unfold zlen in *. rewrite map_length in N. exact N.
Qed.

(** One REPORT LUNS command with too short an allocation length. *)
Lemma luns_too_many : forall luns select alloc allow t, reports_luns tgt luns -> 0 <= select < 2 ^ 8 -> 16 <= alloc < 8 + 8 * zlen luns ->
  exists t', does tgt padded t (Do (ReportLuns select alloc allow) finish) t' (Err EInstruct).
Proof.
  intros luns select alloc allow t [(K & N) Ans] S A. pose proof (luns_data_length luns) as L.
  destruct (luns_issued select alloc allow S ltac:(lia)) as (cdb & J & X).
  destruct (Ans t cdb [] select alloc X) as (t1 & E1). exists t1.
  eapply does_command; [exact Logic.I|exact J|cbn [moderate]; lia|exact E1|apply ordinary_good|].
  rewrite seen_nice. destruct (got_data padded cdb alloc (luns_data luns)) as (m & -> & Hm); [lia|unfold zlen in *; lia|].
  replace (firstn (Z.to_nat alloc) (luns_data luns ++ zeros m)) with (firstn (Z.to_nat alloc) (luns_data luns)).
  2:{ rewrite firstn_app. replace (Z.to_nat alloc - length (luns_data luns))%nat with 0%nat by (unfold zlen in *; lia).
      rewrite firstn_O, app_nil_r. reflexivity. }
  cbn [constructed]. rewrite report_luns_cut; [constructor|lia|exact N|unfold zlen in *; lia].
Qed.
End Fetch.

Lemma does_seen : forall T (tgt : target T) padded t c next k t1 a x t' r, proper c -> issued c = Ok k -> moderate k ->
  tgt t (command_of k) (data_out k) = (t1, a) -> ordinary a -> seen padded c k a = x ->
  does tgt padded t1 (next x) t' r -> does tgt padded t (Do c next) t' r.
Proof. intros. subst. eapply does_command; eauto. Qed.

(** * On the four systems *)
Section Four.
Context (T : Type) (sys : system T) (tgt : target T).

Lemma calls : forall t p next t' r s, one_of_four sys -> idle sys s t ->
  (does tgt (pads sys) t (Call p next) t' r <-> does tgt (pads sys) t (inlined p next) t' r) /\
  (does tgt (pads sys) t (inlined p next) t' r ->
   exists s1 s2, sync_wait_ends (coroutine (os_of sys tgt) (Call p next)) s s1 (shown r) /\ idle sys s1 t' /\
     sync_wait_ends (coroutine (os_of sys tgt) (inlined p next)) s s2 (shown r) /\ idle sys s2 t').
Proof.
  intros t p next t' r s F Hi.
  assert (X : does tgt (pads sys) t (Call p next) t' r <-> does tgt (pads sys) t (inlined p next) t' r).
  { split; intro D.
    - inversion D; subst. eapply does_inlined; eauto.
    - apply inlined_does in D. destruct D as (t1 & rp & D1 & D2). eapply does_call; eauto. }
  split; [exact X|]. intro D. destruct (adaptive _ _ _ _ _ _ _ _ F (proj2 X D) Hi) as (s1 & E1 & I1).
  destruct (adaptive _ _ _ _ _ _ _ _ F D Hi) as (s2 & E2 & I2). exists s1, s2. auto.
Qed.

Lemma retry_runs : forall c k n m t t' a v s, one_of_four sys -> idle sys s t ->
  proper c -> issued c = Ok k -> moderate k -> (m <= n)%nat ->
  good_after tgt k m t t' a -> seen (pads sys) c k a = Ok v ->
  exists s', sync_wait_ends (coroutine (os_of sys tgt) (retried n c)) s s' (shown (Ok v)) /\ idle sys s' t'.
Proof. intros. eapply adaptive; eauto. eapply retry_works; eauto. Qed.

Lemma keys_run : forall g keys first t s, one_of_four sys -> idle sys s t ->
  reports_keys tgt g keys -> 8 <= first < 2 ^ 16 -> zlen keys <= 8190 ->
  exists s' t', sync_wait_ends (coroutine (os_of sys tgt) (fetch_pr 0 first)) s s'
      (shown (Ok (keys_object g (zlen keys) (PList (map PInt keys))))) /\ idle sys s' t'.
Proof.
  intros g keys first t s F Hi D A N. destruct (fetch_keys tgt (pads sys) g keys first t D A) as (t' & X); [lia|].
  destruct (adaptive _ _ _ _ _ _ _ _ F X Hi) as (s' & E & I). eauto.
Qed.

Lemma too_many_run : forall g keys first t s, one_of_four sys -> idle sys s t ->
  reports_keys tgt g keys -> 8 <= first < 2 ^ 16 -> 8190 < zlen keys ->
  exists s' e cdb, interpret cdb = Some (OpPrIn 0 first) /\
    sync_wait_ends (coroutine (os_of sys tgt) (fetch_pr 0 first)) s s' (shown (Err e)) /\ idle sys s' (fst (tgt t cdb [])).
Proof.
  intros g keys first t s F Hi D A N. destruct (fetch_too_many tgt (pads sys) g keys first t D A) as (t' & e & cdb & X & <- & Y); [lia|].
  destruct (adaptive _ _ _ _ _ _ _ _ F Y Hi) as (s' & E & I). exists s', e, cdb. auto.
Qed.

Lemma full_status_run : forall first t t' r s, one_of_four sys -> idle sys s t ->
  does tgt (pads sys) t (fetch_pr 3 first) t' r ->
  exists s' e, sync_wait_ends (coroutine (os_of sys tgt) (fetch_pr 3 first)) s s' (Threw e).
Proof.
  intros first t t' r s F Hi D. destruct (fetch_full_status _ _ _ _ _ _ D) as (e & ->).
  destruct (adaptive _ _ _ _ _ _ _ _ F D Hi) as (s' & E & I). exists s', e. exact E.
Qed.

Lemma luns_run : forall luns select t s, one_of_four sys -> idle sys s t ->
  reports_luns tgt luns -> 0 <= select < 2 ^ 8 -> zlen luns < 2 ^ 29 - 1 ->
  exists s' t', sync_wait_ends (coroutine (os_of sys tgt) (fetch_luns select true)) s s'
      (shown (Ok (luns_object luns (map (fun x => x / 2 ^ 48) luns)))) /\ idle sys s' t'.
Proof.
  intros luns select t s F Hi D S N. destruct (fetch_luns_all tgt (pads sys) luns select t D S N) as (t' & X).
  destruct (adaptive _ _ _ _ _ _ _ _ F X Hi) as (s' & E & I). eauto.
Qed.

Lemma simple_luns_run : forall numbers select t s, one_of_four sys -> idle sys s t ->
  Forall (fun n => 0 <= n < 16384) numbers -> reports_luns tgt (map (fun n => n * 2 ^ 48) numbers) ->
  0 <= select < 2 ^ 8 -> zlen numbers < 2 ^ 29 - 1 ->
  exists s' t', sync_wait_ends (coroutine (os_of sys tgt) (fetch_luns select false)) s s'
      (shown (Ok (luns_object (map (fun n => n * 2 ^ 48) numbers) numbers))) /\ idle sys s' t'.
Proof.
  intros numbers select t s F Hi R D S N. destruct (fetch_luns_simple tgt (pads sys) numbers select t R D S) as (t' & X);
    [unfold zlen in *; rewrite map_length; exact N|].
  destruct (adaptive _ _ _ _ _ _ _ _ F X Hi) as (s' & E & I). eauto.
Qed.

Lemma short_luns_run : forall luns select alloc allow t s, one_of_four sys -> idle sys s t ->
  reports_luns tgt luns -> 0 <= select < 2 ^ 8 -> 16 <= alloc < 8 + 8 * zlen luns ->
  exists s' t', sync_wait_ends (coroutine (os_of sys tgt) (Do (ReportLuns select alloc allow) finish)) s s' (Threw EInstruct) /\ idle sys s' t'.
Proof.
  intros luns select alloc allow t s F Hi D S N. destruct (luns_too_many tgt (pads sys) luns select alloc allow t D S N) as (t' & X).
  destruct (adaptive _ _ _ _ _ _ _ _ F X Hi) as (s' & E & I). exists s', t'. split; [exact E|exact I].
Qed.
End Four.
