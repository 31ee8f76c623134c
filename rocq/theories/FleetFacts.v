(** Lemmas on user programs run together by async_wait. *)
From Coq Require Import String ZArith List Bool Lia PeanoNat.
From Verif Require Import Base BaseFacts Gen SpecGen GenFacts SpecAsync AsyncFacts Executer SpecCall ExecFacts
  OsCommon OsWin32 SpecSg SpecDrivers SpecSession WinFacts SessionFacts
  Instruct Command SpecDevice SpecExecute ExecuteFacts Sense SpecSense SenseFacts SpecPortable PortableFacts SpecReserve ReserveFacts
  SpecAdaptive AdaptiveFacts SpecFleet.
Import ListNotations.
Local Open Scope list_scope.
Local Open Scope Z_scope.

Lemma win_async_step : forall T A sense_of (tgt : target T),
  steps (win_async_os (A := A) sense_of (honest_win tgt)) tgt win_expected win_idle win_fits
    (fun a => a_host a = 0 /\ (a_status a = 2 -> sense_of (pad 255 (a_sense a)) = Ok tt)).
Proof.
  intros T A sense_of tgt s t me c t' a (H1 & H2 & H4) Hc Ht (Ha1 & Ha2) Hl.
  destruct (win_async_call (A := A) sense_of tgt s me c t (w_heap (world s)) (w_objs (world s)) (incoming_packets (world s)) t' a)
    as (h' & objs' & E); auto; try lia.
  - rewrite H1. cbn. lia.
  - rewrite H1. reflexivity.
  - rewrite <- H4. destruct (world s); reflexivity.
  - eexists. split; [exact E|]. split; [|reflexivity].
    split; [exact H1|]. split; [exact H2|reflexivity].
Qed.

Lemma member_runs : forall T (m : member T), alone m ->
  exists s', call_evaluates (running m) (executer_of m) s' (outcome_for (result_alone m)) /\ win_idle s' (after m).
Proof.
  intros T m [Hi D].
  destruct (runs _ _ _ _ _ _ (win_async_step T pyval parse_sense (device m)) false) with (5 := Hi) (4 := D)
    as (s' & E & Hi'); auto using fits_win, nice_win.
  - intros x (Hh & Hc & _). split; auto. intros _. apply conforming_parses. auto.
  - exists s'. split; [apply E|exact Hi'].
Qed.

Lemma members_run : forall T (ms : list (member T)), Forall alone ms ->
  exists ss', Forall2 (fun m s' => call_evaluates (running m) (executer_of m) s' (outcome_for (result_alone m)) /\ win_idle s' (after m)) ms ss'.
Proof.
  intros T ms F. induction F as [|m ms H F IH]; [exists []; constructor|].
  destruct IH as [ss' IH]. destruct (member_runs T m H) as [s' H']. exists (s' :: ss'). constructor; auto.
Qed.

Lemma Forall2_at : forall A B (P : A -> B -> Prop) l1 l2, Forall2 P l1 l2 -> forall i a b,
  nth_error l1 i = Some a -> nth_error l2 i = Some b -> P a b.
Proof.
  intros A B P l1 l2 F. induction F as [|a b l1 l2 H F IH]; intros [|i] a0 b0 Ha Hb; cbn in *; try discriminate.
  - congruence.
  - eauto.
Qed.
Lemma Forall2_len : forall A B (P : A -> B -> Prop) l1 l2, Forall2 P l1 l2 -> length l1 = length l2.
Proof. intros A B P l1 l2 F. induction F; cbn; congruence. Qed.

Lemma fleet_outcomes : forall T (ms : list (member T)), Forall alone ms ->
  exists ss' N, Forall2 (fun m s' => win_idle s' (after m)) ms ss' /\
  forall n r choose, (N <= n)%nat -> (N <= r)%nat -> fair_choice choose ->
    let run := async_wait n r choose (commands_at (map running ms)) (map executer_of ms) in
    (exists vs, map result_alone ms = map Ok vs /\ run = (ss', Some (Ok (results_at (map (fun v => RVal (yielded_value v)) vs))))) \/
    (exists i m e st, nth_error ms i = Some m /\ result_alone m = Err e /\ run = (st, Some (Err e)) /\
       length st = length ms /\ exists s, nth_error st i = Some s /\ win_idle s (after m)).
Proof.
  intros T ms F. destruct (members_run T ms F) as [ss' H]. exists ss'.
  pose proof (Forall2_len _ _ _ _ _ H) as HL.
  destruct (async_wait_outcomes (map running ms) (map executer_of ms) ss' (map (fun m => shown (result_alone m)) ms)) as [N HN];
    try (rewrite !map_length; auto; fail).
  - intros i g s Hg Hs. rewrite nth_error_map in Hg, Hs. destruct (nth_error ms i) as [m|] eqn:E; [|discriminate].
    cbn in Hg, Hs. injection Hg as <-. injection Hs as <-.
    destruct (member_runs T m) as (s' & X & _); [rewrite Forall_forall in F; apply F; eapply nth_error_In; eauto|].
    eapply call_smooth. exact X.
  - intros i g s s' o Hg Hs Hs' Ho. rewrite nth_error_map in Hg, Hs, Ho. destruct (nth_error ms i) as [m|] eqn:E; [|discriminate].
    cbn in Hg, Hs, Ho. injection Hg as <-. injection Hs as <-. injection Ho as <-.
    destruct (Forall2_at _ _ _ _ _ H _ _ _ E Hs') as [X _].
    destruct (result_alone m) as [v|e]; cbn [outcome_for shown] in *; [apply sync_wait_value|apply sync_wait_raise]; exact X.
  - exists N. split; [clear - H; induction H as [|m s' ms ss' [_ X] H IH]; constructor; auto|].
    intros n r choose Hn Hr Hf run. destruct (HN n r choose Hn Hr Hf) as [(rs & E & R)|(i & e & st & E & R & L & Q)].
    + left. unfold run. rewrite R. clear - E.
      assert (X : exists vs, map result_alone ms = map Ok vs /\ rs = map (fun v => RVal (yielded_value v)) vs).
      { revert rs E. induction ms as [|m ms IH]; intros [|r rs] E; try discriminate; [exists []; auto|].
        cbn [map] in E. injection E as E1 E2. destruct (IH rs E2) as (vs & V1 & V2).
        destruct (result_alone m) as [v|e] eqn:Em; cbn [shown] in E1; [|discriminate]. injection E1 as <-.
        exists (v :: vs). cbn [map]. rewrite Em, V1, V2. auto. }
      destruct X as (vs & V1 & ->). exists vs. auto.
    + right. rewrite nth_error_map in E. destruct (nth_error ms i) as [m|] eqn:Em; [|discriminate].
      cbn in E. injection E as E. exists i, m, e, st. split; [exact Em|].
      split; [destruct (result_alone m); cbn [shown] in E; [discriminate|congruence]|].
      split; [exact R|]. rewrite map_length in L. split; [exact L|].
      assert (Hi : (i < length ms)%nat) by (apply nth_error_Some; congruence).
      destruct (nth_error ss' i) as [s|] eqn:Es; [|apply nth_error_None in Es; lia].
      exists s. split; [congruence|]. apply (Forall2_at _ _ _ _ _ H _ _ _ Em Es).
Qed.

Lemma values_at : forall S D (vs : list (val D)), results_at (S := S) (map RVal vs) = map RVal vs.
Proof.
  intros S D vs. unfold results_at. generalize 0%nat as k. induction vs as [|v vs IH]; intros k; [reflexivity|].
  cbn. f_equal. apply IH.
Qed.

Lemma coroutine_outcomes : forall S D (gs : list (gen S D)) ss ss' outs,
  length ss = length gs -> length ss' = length gs -> length outs = length gs ->
  (forall i g s s' o, nth_error gs i = Some g -> nth_error ss i = Some s -> nth_error ss' i = Some s' ->
     nth_error outs i = Some o ->
     call_evaluates g s s' (match o with Ok v => CallReturns v true | Err e => CallRaises e end)) ->
  exists N, forall n m choose, (N <= n)%nat -> (N <= m)%nat -> fair_choice choose ->
    (exists vs, outs = map Ok vs /\
       async_wait n m choose (commands_at gs) ss = (ss', Some (Ok (map RVal vs)))) \/
    (exists i e st, nth_error outs i = Some (Err e) /\
       async_wait n m choose (commands_at gs) ss = (st, Some (Err e)) /\
       length st = length gs /\ nth_error st i = nth_error ss' i).
Proof.
  intros S D gs ss ss' outs H1 H2 H3 H.
  assert (X : forall i g s s' o, nth_error gs i = Some g -> nth_error ss i = Some s -> nth_error ss' i = Some s' ->
    nth_error (map (fun o => match o with Ok v => Returned (RVal v) | Err e => Threw e end) outs) i = Some o ->
    tok_ok (coroutine_init g) s /\ sync_wait_ends g s s' o).
  { intros i g s s' o Hg Hs Hs' Ho. rewrite nth_error_map in Ho. destruct (nth_error outs i) as [o'|] eqn:Eo; [|discriminate].
    injection Ho as <-. specialize (H i g s s' o' Hg Hs Hs' Eo). split; [eapply call_smooth; exact H|].
    destruct o'; [apply sync_wait_value|apply sync_wait_raise]; exact H. }
  destruct (async_wait_outcomes gs ss ss' (map (fun o => match o with Ok v => Returned (RVal v) | Err e => Threw e end) outs)) as [N HN]; auto.
  - rewrite map_length. exact H3.
  - intros i g s Hg Hs. assert (Hi : (i < length gs)%nat) by (apply nth_error_Some; congruence).
    destruct (nth_error ss' i) as [s'|] eqn:Es; [|apply nth_error_None in Es; lia].
    destruct (nth_error outs i) as [o|] eqn:Eo; [|apply nth_error_None in Eo; lia].
    eapply X; eauto. rewrite nth_error_map, Eo. reflexivity.
  - intros i g s s' o Hg Hs Hs' Ho. eapply X; eauto.
  - exists N. intros n m choose Hn Hm Hf. destruct (HN n m choose Hn Hm Hf) as [(rs & E & R)|(i & e & st & E & R & L & Q)].
    + left. rewrite R. clear - E.
      assert (Y : exists vs, outs = map Ok vs /\ rs = map RVal vs).
      { revert rs E. induction outs as [|o outs IH]; intros [|r rs] E; try discriminate; [exists []; auto|].
        cbn [map] in E. injection E as E1 E2. destruct (IH rs E2) as (vs & -> & ->).
        destruct o as [v|e]; [|discriminate]. injection E1 as <-. exists (v :: vs). auto. }
      destruct Y as (vs & -> & ->). exists vs. split; [reflexivity|]. do 3 f_equal.
      apply values_at.
    + right. exists i, e, st. rewrite nth_error_map in E. destruct (nth_error outs i) as [[v|e']|]; try discriminate.
      injection E as <-. auto.
Qed.

Lemma fleet_values : forall T (ms : list (member T)), Forall alone ms -> Forall returns_value ms ->
  exists ss' N, Forall2 (fun m s' => win_idle s' (after m)) ms ss' /\
  forall n r choose, (N <= n)%nat -> (N <= r)%nat -> fair_choice choose ->
    async_wait n r choose (commands_at (map running ms)) (map executer_of ms) = (ss', Some (Ok (fleet_results ms))).
Proof.
  intros T ms A V. destruct (fleet_outcomes T ms A) as (ss' & N & H & E). exists ss', N. split; [exact H|].
  intros n r choose Hn Hr Hf. destruct (E n r choose Hn Hr Hf) as [(vs & Ev & R)|(i & m & e & st & Em & Ee & _)].
  - rewrite R. do 3 f_equal. rewrite <- (map_map yielded_value RVal vs), values_at. unfold fleet_results. rewrite map_map.
    clear - Ev. revert vs Ev. induction ms as [|m ms IH]; intros [|v vs] Ev; try discriminate; [reflexivity|].
    cbn [map] in *. injection Ev as E1 E2. unfold value_of at 1. rewrite E1. f_equal. apply IH. exact E2.
  - rewrite Forall_forall in V. destruct (V m) as [v Hv]; [eapply nth_error_In; eauto|]. congruence.
Qed.

Lemma fleet_exception : forall T (ms : list (member T)), Forall alone ms -> ~ Forall returns_value ms ->
  exists N, forall n r choose, (N <= n)%nat -> (N <= r)%nat -> fair_choice choose ->
    exists i m e st, nth_error ms i = Some m /\ result_alone m = Err e /\
      async_wait n r choose (commands_at (map running ms)) (map executer_of ms) = (st, Some (Err e)) /\
      length st = length ms /\ exists s, nth_error st i = Some s /\ win_idle s (after m).
Proof.
  intros T ms A V. destruct (fleet_outcomes T ms A) as (ss' & N & H & E). exists N.
  intros n r choose Hn Hr Hf. destruct (E n r choose Hn Hr Hf) as [(vs & Ev & R)|X]; [|exact X].
  exfalso. apply V. clear - Ev. revert vs Ev. induction ms as [|m ms IH]; intros [|v vs] Ev; try discriminate; constructor.
  - exists v. cbn in Ev. congruence.
  - cbn in Ev. injection Ev as _ E2. eauto.
Qed.

Lemma guard_alone : forall T h (m : member T), alone m -> alone (guard h m).
Proof.
  intros T h m [Hi D]. split; [exact Hi|]. cbn. eapply does_call; [exact D|]. apply does_return.
Qed.

Lemma fleet_guarded : forall T handler (ms : list (member T)), Forall alone ms ->
  exists ss' N, Forall2 (fun m s' => win_idle s' (after m)) ms ss' /\
  forall n r choose, (N <= n)%nat -> (N <= r)%nat -> fair_choice choose ->
    async_wait n r choose (commands_at (map running (map (guard handler) ms))) (map executer_of ms) =
      (ss', Some (Ok (map (fun m => RVal (yielded_value (match result_alone m with Ok v => v | Err e => handler e end))) ms))).
Proof.
  intros T h ms A. destruct (fleet_values T (map (guard h) ms)) as (ss' & N & H & E).
  - rewrite Forall_map. eapply Forall_impl; [|exact A]. intros m. apply guard_alone.
  - rewrite Forall_map. apply Forall_forall. intros m _. eexists. reflexivity.
  - exists ss', N. split.
    + clear - H. revert ss' H. induction ms as [|m ms IH]; intros ss' H; inversion H; subst; constructor; auto.
    + intros n r choose Hn Hr Hf. specialize (E n r choose Hn Hr Hf).
      rewrite (map_map (guard h) executer_of) in E. unfold fleet_results in E.
      rewrite (map_map (guard h) (fun m => RVal (yielded_value (value_of m)))) in E. exact E.
Qed.
