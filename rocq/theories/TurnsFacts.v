(** Facts about SpecTurns.v. *)
From Coq Require Import String ZArith List Bool Lia PeanoNat.
From Verif Require Import Base BaseFacts Gen SpecGen Executer OsCommon OsLinux SpecSg SpecDrivers SpecSession Instruct Command
  CdbPrimary SpecDevice SpecCdb CdbAllFacts SpecExecute ExecuteFacts Sense SpecSense SpecPortable DiskFacts SpecReserve SpecAdaptive AdaptiveFacts
  SpecShared SharedFacts SpecTurns.
Import ListNotations.
Local Open Scope string_scope.
Local Open Scope list_scope.
Local Open Scope Z_scope.

(** * The commands *)
Lemma meaning_issued : forall c k, proper c -> issued c = Ok k -> interpret (command_of k) = Some (meaning c).
Proof. intros c k P J. pose proof (issued_spec c P) as I. rewrite J in I. apply I. Qed.
Lemma other_proper : forall op, reserve_op op \/ release_op op -> other_op op -> False.
Proof. intros op [[->| ->]|[->| ->]] []. Qed.

Lemma reserve10_self : forall id, id <= 0 -> reserve10 id = reserve10 0 /\ release10 id = release10 0.
Proof.
  intros id H. unfold reserve10, release10. replace (0 <? id) with false by (symmetry; apply Z.ltb_ge; lia). split; reflexivity.
Qed.
Lemma lock_issue : forall c, locks c -> proper c /\ exists cdb, issued c = Ok (WriteCmd cdb []) /\ reserve_op (meaning c) /\
  forall o, constructed c = Ok o -> o_finish o = raw_result.
Proof.
  intros c [->|(id & Hid & ->)].
  - split; [exact Logic.I|]. eexists. split; [vm_compute; reflexivity|]. split; [left; reflexivity|].
    intros o H. cbn in H. unfold reserve6 in H. injection H as <-. reflexivity.
  - split; [exact Logic.I|]. destruct (reserve10_self id Hid) as [E _]. eexists.
    split; [unfold issued; cbn [constructed]; rewrite E; vm_compute; reflexivity|].
    split; [right; cbn; unfold third_party_op; replace (id <=? 0) with true by (symmetry; apply Z.leb_le; lia); reflexivity|].
    intros o H. cbn in H. rewrite E in H. cbn in H. injection H as <-. reflexivity.
Qed.
Lemma unlock_issue : forall c, unlocks c -> proper c /\ exists cdb, issued c = Ok (WriteCmd cdb []) /\ release_op (meaning c) /\
  forall o, constructed c = Ok o -> o_finish o = raw_result.
Proof.
  intros c [->|(id & Hid & ->)].
  - split; [exact Logic.I|]. eexists. split; [vm_compute; reflexivity|]. split; [left; reflexivity|].
    intros o H. cbn in H. unfold release6 in H. injection H as <-. reflexivity.
  - split; [exact Logic.I|]. destruct (reserve10_self id Hid) as [_ E]. eexists.
    split; [unfold issued; cbn [constructed]; rewrite E; vm_compute; reflexivity|].
    split; [right; cbn; unfold third_party_op; replace (id <=? 0) with true by (symmetry; apply Z.leb_le; lia); reflexivity|].
    intros o H. cbn in H. rewrite E in H. cbn in H. injection H as <-. reflexivity.
Qed.
Lemma conflict_ordinary : ordinary conflict.
Proof.
  split; [reflexivity|]. split; [|right; right; split; reflexivity]. split; [constructor|]. cbn. intros [H|H]; discriminate H.
Qed.

(** A step of a program and what the program does. *)
Lemma does_moves : forall S (plain : target S) padded s q met s1 q1, moves plain padded s q met s1 q1 ->
  forall s' r, does plain padded s1 q1 s' r -> does plain padded s q s' r.
Proof.
  intros S plain padded s q met s1 q1 M. induction M; intros s' r X.
  - eapply does_refused; eauto.
  - eapply does_command; eauto.
  - inversion X; subst. eapply does_call; eauto.
  - eapply does_call; [constructor|exact X].
  - eapply does_call; [constructor|exact X].
Qed.

Section Turns.
Context {S T : Type} (tgt : nat -> target T) (plain : nat -> target S) (owner : T -> option nat) (inner : T -> S).
Hypothesis V : reservable tgt plain owner inner.

(** What RESERVE and RELEASE do. *)
Lemma lock_moves : forall h padded lock t, locks lock -> proper lock /\ exists k t1 a, issued lock = Ok k /\ moderate k /\
  tgt h t (command_of k) (data_out k) = (t1, a) /\ ordinary a /\ inner t1 = inner t /\
  ((open_to h (owner t) = true /\ seen padded lock k a = Ok PNone /\ owner t1 = Some h) \/
   (open_to h (owner t) = false /\ seen padded lock k a = Err EAsiSCSI /\ owner t1 = owner t)).
Proof.
  intros h padded lock t Lk. destruct (lock_issue lock Lk) as (P & cdb & J & R & F). split; [exact P|].
  pose proof (meaning_issued _ _ P J) as I. cbn [command_of] in I.
  destruct (rv_reserve _ _ _ _ V h t cdb [] _ I R) as (t1 & E & N & O). exists (WriteCmd cdb []), t1. eexists. split; [exact J|].
  split; [cbn; lia|]. split; [exact E|]. destruct (open_to h (owner t)) eqn:Q.
  - split; [apply ordinary_good|]. split; [exact N|]. left. split; [reflexivity|]. split; [apply write_seen; assumption|exact O].
  - split; [apply conflict_ordinary|]. split; [exact N|]. right. split; [reflexivity|]. split; [reflexivity|exact O].
Qed.
Lemma unlock_moves : forall h padded unlock t, unlocks unlock -> proper unlock /\ exists k t1, issued unlock = Ok k /\ moderate k /\
  tgt h t (command_of k) (data_out k) = (t1, good []) /\ seen padded unlock k (good []) = Ok PNone /\ inner t1 = inner t /\
  owner t1 = if open_to h (owner t) then None else owner t.
Proof.
  intros h padded unlock t Lk. destruct (unlock_issue unlock Lk) as (P & cdb & J & R & F). split; [exact P|].
  pose proof (meaning_issued _ _ P J) as I. cbn [command_of] in I.
  destruct (rv_release _ _ _ _ V h t cdb [] _ I R) as (t1 & E & N & O). exists (WriteCmd cdb []), t1. split; [exact J|].
  split; [cbn; lia|]. split; [exact E|]. split; [apply write_seen; assumption|]. split; [exact N|exact O].
Qed.

(** A step of a host that has the device is a step on the plain device. *)
Lemma owner_moves : forall h padded t q met t1 q1, moves (tgt h) padded t q met t1 q1 -> no_locks q -> open_to h (owner t) = true ->
  no_locks q1 /\ owner t1 = owner t /\ exists met', moves (plain h) padded (inner t) q met' (inner t1) q1.
Proof.
  intros h padded t q met t1 q1 M. induction M as [t c next e J|t c next k t1 a P J Mo E O|t q next met t1 q1 M IH|t v next|t e next];
    intros N Q; cbn [no_locks] in N; destruct N as [N1 N2].
  - split; [apply N2|]. split; [reflexivity|]. eexists. apply mv_refused. exact J.
  - split; [apply N2|]. destruct (rv_use _ _ _ _ V h t (command_of k) (data_out k) _ (meaning_issued _ _ P J) N1 Q) as (t2 & E2 & I2 & O2).
    rewrite E in E2. injection E2 as -> ->. split; [exact O2|]. rewrite I2. eexists.
    eapply mv_command; eauto. destruct (plain h (inner t) (command_of k) (data_out k)); reflexivity.
  - destruct (IH N1 Q) as (A & B & met' & C). split; [split; assumption|]. split; [exact B|]. eexists. apply mv_inside. exact C.
  - split; [apply N2|]. split; [reflexivity|]. eexists. apply mv_back.
  - split; [apply N2|]. split; [reflexivity|]. eexists. apply mv_thrown.
Qed.

Context (lock unlock : nat -> command) (tries : nat -> nat) (body : nat -> prog) (count : nat) (padded : nat -> bool).
Hypothesis Lk : forall h, locks (lock h) /\ unlocks (unlock h).
Hypothesis Nl : forall h, no_locks (body h).
Context (t0 : T).

Definition leaving (h : nat) (result : result pyval) : prog :=
  Do (unlock h) (fun r => match r with Ok _ => finish result | Err e => Fail e end).
Definition queueing (h m : nat) : prog := taking_turn (lock h) (unlock h) m (body h).
Lemma queueing_unfold : forall h m, queueing h m = Do (lock h) (fun r =>
  match r with
  | Ok _ => Call (body h) (leaving h)
  | Err EAsiSCSI => match m with Datatypes.S m => queueing h m | O => Fail EAsiSCSI end
  | Err e => Fail e
  end).
Proof. intros h m. destruct m; reflexivity. Qed.

Notation taken := (taken owner).

(** How far a host has come: [met] are the states its commands met, [s] the state after the bodies of [done]. *)
Inductive stage (t : T) (done : list (nat * result pyval)) (s : S) (h : nat) (met : list T) : prog -> Prop :=
| st_wait : forall m, ~ In h (map fst done) -> owner t <> Some h -> (m <= tries h)%nat -> (length met = tries h - m)%nat ->
    Forall (taken h) met -> stage t done s h met (queueing h m)
| st_fail : ~ In h (map fst done) -> owner t <> Some h -> length met = Datatypes.S (tries h) -> Forall (taken h) met ->
    stage t done s h met (Fail EAsiSCSI)
| st_work : forall q, ~ In h (map fst done) -> owner t = Some h -> no_locks q ->
    (forall s' r, does (plain h) (padded h) (inner t) q s' r -> does (plain h) (padded h) s (body h) s' r) ->
    stage t done s h met (Call q (leaving h))
| st_leave : forall r, ~ In h (map fst done) -> owner t = Some h -> does (plain h) (padded h) s (body h) (inner t) r ->
    stage t done s h met (leaving h r)
| st_done : forall r, In (h, r) done -> owner t <> Some h -> stage t done s h met (finish r).

Record turns (t : T) (ps : nat -> prog) (done : list (nat * result pyval)) (s : S) (met : nat -> list T) : Prop := Turns {
  tu_done : one_by_one plain padded body (inner t0) done s;
  tu_once : NoDup (map fst done);
  tu_hosts : forall h, In h (map fst done) -> (h < count)%nat;
  tu_free : owner t = None -> inner t = s;
  tu_owner : forall h, owner t = Some h -> (h < count)%nat;
  tu_stage : forall h, (h < count)%nat -> stage t done s h (met h) (ps h);
  tu_idle : forall h, (count <= h)%nat -> ps h = Return PNone
}.

Lemma one_by_one_snoc : forall s done s1 h r s2, one_by_one plain padded body s done s1 -> does (plain h) (padded h) s1 (body h) s2 r ->
  one_by_one plain padded body s (done ++ [(h, r)]) s2.
Proof.
  intros s done s1 h r s2 H D. induction H; cbn [app]; [eapply ob_cons; [exact D|constructor]|]. eapply ob_cons; eauto.
Qed.

(** Stages of the other hosts. *)
Lemma stage_other : forall t done s h x met p t1 done1 s1, stage t done s h met p -> x <> h ->
  (owner t = Some x \/ owner t = None) \/ owner t1 = owner t /\ inner t1 = inner t /\ done1 = done /\ s1 = s ->
  owner t1 = owner t \/ owner t1 = Some x \/ owner t1 = None ->
  (done1 = done \/ exists r, done1 = done ++ [(x, r)]) -> stage t1 done1 s1 h met p.
Proof.
  intros t done s h x met p t1 done1 s1 H N A B C.
  assert (NI : ~ In h (map fst done) -> ~ In h (map fst done1)).
  { intros X Y. destruct C as [->|(r & ->)]; [contradiction|]. rewrite map_app in Y. apply in_app_or in Y. destruct Y as [Y|[Y|[]]]; contradiction. }
  assert (NO : owner t <> Some h -> owner t1 <> Some h) by (intros X Y; destruct B as [B|[B|B]]; congruence).
  destruct H as [m I1 I2 I3 I4 I5|I1 I2 I3 I4|q I1 I2 I3 I4|r I1 I2 I3|r I1 I2].
  - apply st_wait; auto.
  - apply st_fail; auto.
  - destruct A as [[A|A]|(A1 & A2 & -> & ->)]; [congruence|congruence|]. apply st_work; auto; [congruence|]. rewrite A2. exact I4.
  - destruct A as [[A|A]|(A1 & A2 & -> & ->)]; [congruence|congruence|]. apply st_leave; auto; [congruence|]. rewrite A2. exact I3.
  - apply st_done; auto. destruct C as [->|(r' & ->)]; [exact I1|apply in_or_app; auto].
Qed.

Lemma turn_step : forall t ps done s met h m t1 p1, turns t ps done s met -> moves (tgt h) (padded h) t (ps h) m t1 p1 ->
  exists done1 s1, turns t1 (replaced h p1 ps) done1 s1 (fun x => if Nat.eqb x h then (met x ++ m) else met x).
Proof.
  intros t ps done s met h m t1 p1 [I1 I2 I3 I4 I5 I6 I7] M.
  destruct (Nat.lt_ge_cases h count) as [Lt|Ge]; [|rewrite (I7 h Ge) in M; inversion M].
  assert (Frame : forall done1 s1 q, (forall x, (x < count)%nat -> x <> h -> stage t1 done1 s1 x (met x) (ps x)) ->
    stage t1 done1 s1 h (met h ++ m) q ->
    (forall x, (x < count)%nat -> stage t1 done1 s1 x (if Nat.eqb x h then met x ++ m else met x) (replaced h q ps x)) /\
    (forall x, (count <= x)%nat -> replaced h q ps x = Return PNone)).
  { intros done1 s1 q A1 A2. split; intros x X; unfold replaced; destruct (Nat.eqb_spec x h) as [->|N]; auto; lia. }
  pose proof (I6 h Lt) as P. destruct P as [n J1 J2 J3 J4 J5|J1 J2 J3 J4|q J1 J2 J3 J4|r J1 J2 J3|r J1 J2].
  - (* RESERVE *)
    destruct (lock_moves h (padded h) (lock h) t (proj1 (Lk h))) as (Pr & k & t2 & a & J & Mo & E & O & N & R).
    rewrite queueing_unfold in M. destruct (moved tgt padded _ _ _ _ _ _ _ _ _ _ M J E) as (-> & -> & ->).
    destruct R as [(R1 & R2 & R3)|(R1 & R2 & R3)]; rewrite R2; cbv beta iota.
    + assert (F : owner t = None) by (destruct (owner t) as [x|]; [cbn in R1; apply Nat.eqb_eq in R1; congruence|reflexivity]).
      exists done, s. destruct (Frame done s (Call (body h) (leaving h))) as [A1 A2].
      * intros x X Nx. eapply stage_other with (x := h); [apply I6; exact X|congruence|auto|auto|auto].
      * apply st_work; auto. rewrite N, (I4 F). auto.
      * split; auto; [congruence|]. intros x X. rewrite R3 in X. injection X as <-. exact Lt.
    + assert (F : taken h t).
      { destruct (owner t) as [x|] eqn:Ow; [|discriminate R1]. exists x. split; [|exact Ow]. cbn in R1. apply Nat.eqb_neq in R1. exact R1. }
      exists done, s. destruct (Frame done s (match n with Datatypes.S m => queueing h m | O => Fail EAsiSCSI end)) as [A1 A2].
      * intros x X Nx. eapply stage_other with (x := h); [apply I6; exact X|congruence|auto|auto|auto].
      * destruct n as [|n].
        -- apply st_fail; auto; [congruence|rewrite app_length; cbn [length]; lia|apply Forall_app; auto].
        -- apply st_wait; auto; [congruence|lia|rewrite app_length; cbn [length]; lia|apply Forall_app; auto].
      * split; auto; [rewrite R3, N; exact I4|rewrite R3; exact I5].
  - inversion M.
  - (* the body *)
    inversion M; subst.
    + match goal with H : moves _ _ t q _ _ _ |- _ => destruct (owner_moves _ _ _ _ _ _ _ H J3) as (B1 & B2 & met' & B3) end.
      { rewrite J2. cbn. apply Nat.eqb_refl. }
      exists done, s. match goal with |- turns _ (replaced h ?p ps) _ _ _ => destruct (Frame done s p) as [A1 A2] end.
      * intros x X Nx. eapply stage_other with (x := h); [apply I6; exact X|congruence|auto|auto|auto].
      * apply st_work; auto; [congruence|]. intros s' r D. apply J4. eapply does_moves; eauto.
      * split; auto; [rewrite B2, J2; discriminate|rewrite B2; exact I5].
    + exists done, s. destruct (Frame done s (leaving h (Ok v))) as [A1 A2].
      * intros x X Nx. apply I6. exact X.
      * apply st_leave; auto. apply J4. constructor.
      * split; auto.
    + exists done, s. destruct (Frame done s (leaving h (Err e))) as [A1 A2].
      * intros x X Nx. apply I6. exact X.
      * apply st_leave; auto. apply J4. constructor.
      * split; auto.
  - (* RELEASE *)
    destruct (unlock_moves h (padded h) (unlock h) t (proj2 (Lk h))) as (Pr & k & t2 & J & Mo & E & Se & N & R).
    unfold leaving in M. destruct (moved tgt padded _ _ _ _ _ _ _ _ _ _ M J E) as (-> & -> & ->).
    rewrite Se. rewrite J2 in R. cbn in R. rewrite Nat.eqb_refl in R.
    exists (done ++ [(h, r)]), (inner t). destruct (Frame (done ++ [(h, r)]) (inner t) (finish r)) as [A1 A2].
    + intros x X Nx. eapply stage_other with (x := h); [apply I6; exact X|congruence|auto|auto|right; eauto].
    + apply st_done; [apply in_or_app; right; left; reflexivity|congruence].
    + split; auto.
      * eapply one_by_one_snoc; eauto.
      * rewrite map_app. cbn [map fst]. apply NoDup_rev in I2. rewrite <- (rev_involutive (map fst done ++ [h])). apply NoDup_rev.
        rewrite rev_app_distr. cbn [rev app]. constructor; [intro X; apply in_rev in X; contradiction|exact I2].
      * intros x X. rewrite map_app in X. apply in_app_or in X. destruct X as [X|[<-|[]]]; auto.
      * intros x X. congruence.
  - destruct r; inversion M.
Qed.

Lemma turns_run : forall t ps trace t' ps', together tgt padded t ps trace t' ps' -> forall done s met, turns t ps done s met ->
  exists done' s' met', turns t' ps' done' s' met' /\ forall h, met' h = met h ++ met_by h trace.
Proof.
  intros t ps trace t' ps' G. induction G as [t ps|t ps x m t1 p1 trace t' ps' M G IH]; intros done s met I.
  - exists done, s, met. split; [exact I|]. intro h. cbn. symmetry. apply app_nil_r.
  - destruct (turn_step _ _ _ _ _ _ _ _ _ I M) as (d1 & s1 & I1). destruct (IH _ _ _ I1) as (d2 & s2 & m2 & I2 & U).
    exists d2, s2, m2. split; [exact I2|]. intro h. rewrite U, met_cons, (Nat.eqb_sym x h).
    destruct (Nat.eqb h x); [rewrite app_assoc; reflexivity|reflexivity].
Qed.

Lemma turns_start : owner t0 = None -> turns t0 (crowd count (fun h => taking_turn (lock h) (unlock h) (tries h) (body h))) [] (inner t0) (fun _ => []).
Proof.
  intro F. split; auto.
  - constructor.
  - constructor.
  - intros h [].
  - congruence.
  - intros h Lt. unfold crowd. destruct (Nat.ltb_spec h count); [|lia]. apply st_wait; auto; [congruence|cbn; lia].
  - intros h Ge. unfold crowd. destruct (Nat.ltb_spec h count); [lia|reflexivity].
Qed.

Lemma ended_queueing : forall h m, ended (queueing h m) = None.
Proof. intros h m. rewrite queueing_unfold. reflexivity. Qed.
Lemma finish_ended : forall r, ended (finish r) = Some r.
Proof. intros [v|e]; reflexivity. Qed.

Theorem turn_by_turn : owner t0 = None -> forall trace t' ps',
  together tgt padded t0 (crowd count (fun h => taking_turn (lock h) (unlock h) (tries h) (body h))) trace t' ps' ->
  exists done s, one_by_one plain padded body (inner t0) done s /\ NoDup (map fst done) /\
    (forall h r, In (h, r) done -> (h < count)%nat /\ ended (ps' h) = Some r) /\
    (forall h r, (h < count)%nat -> ended (ps' h) = Some r -> In (h, r) done \/
       r = Err EAsiSCSI /\ ~ In h (map fst done) /\ length (met_by h trace) = Datatypes.S (tries h) /\ Forall (taken h) (met_by h trace)) /\
    (forall h, at_work (ps' h) -> owner t' = Some h) /\
    (forall h, owner t' = Some h -> ended (ps' h) = None) /\
    (owner t' = None -> inner t' = s).
Proof.
  intros F trace t' ps' G. destruct (turns_run _ _ _ _ _ G _ _ _ (turns_start F)) as (done & s & met & [I1 I2 I3 I4 I5 I6 I7] & U).
  cbn [app] in U. exists done, s. split; [exact I1|]. split; [exact I2|]. split; [|split; [|split; [|split; [|exact I4]]]].
  - intros h r X. assert (Lt : (h < count)%nat) by (apply I3; apply (in_map fst _ _ X)). split; [exact Lt|].
    pose proof (I6 h Lt) as P. remember (ps' h) as p eqn:E.
    assert (Y : In h (map fst done)) by (apply (in_map fst _ _ X)).
    destruct P as [m J1 J2 J3 J4 J5|J1 J2 J3 J4|q J1 J2 J3 J4|r' J1 J2 J3|r' J1 J2]; try contradiction.
    rewrite finish_ended. f_equal. clear - X J1 I2. induction done as [|[a b] done IH]; [contradiction|].
    cbn [map fst] in I2. inversion I2; subst. destruct X as [X|X], J1 as [J1|J1]; auto.
    + congruence.
    + injection X as -> ->. exfalso. apply H1. apply (in_map fst _ _ J1).
    + injection J1 as -> ->. exfalso. apply H1. apply (in_map fst _ _ X).
  - intros h r Lt E. pose proof (I6 h Lt) as P. rewrite U in P. destruct P as [m J1 J2 J3 J4 J5|J1 J2 J3 J4|q J1 J2 J3 J4|r' J1 J2 J3|r' J1 J2].
    + rewrite ended_queueing in E. discriminate E.
    + right. injection E as <-. auto.
    + discriminate E.
    + discriminate E.
    + rewrite finish_ended in E. injection E as <-. left. exact J1.
  - intros h A. destruct (Nat.lt_ge_cases h count) as [Lt|Ge]; [|rewrite (I7 h Ge) in A; destruct A].
    pose proof (I6 h Lt) as P. destruct P as [m J1 J2 J3 J4 J5|J1 J2 J3 J4|q J1 J2 J3 J4|r' J1 J2 J3|r' J1 J2]; auto.
    + rewrite queueing_unfold in A. destruct A.
    + destruct A.
    + destruct r'; destruct A.
  - intros h O. pose proof (I6 h (I5 h O)) as P. destruct P as [m J1 J2 J3 J4 J5|J1 J2 J3 J4|q J1 J2 J3 J4|r' J1 J2 J3|r' J1 J2]; try congruence.
    + reflexivity.
    + reflexivity.
Qed.

(** Outside the body nobody is stuck. *)
Theorem turns_move : owner t0 = None -> forall trace t' ps' h,
  together tgt padded t0 (crowd count (fun h => taking_turn (lock h) (unlock h) (tries h) (body h))) trace t' ps' ->
  ended (ps' h) = None -> ~ at_work (ps' h) -> exists t1 p1, moves (tgt h) (padded h) t' (ps' h) [t'] t1 p1.
Proof.
  intros F trace t' ps' h G E A. destruct (turns_run _ _ _ _ _ G _ _ _ (turns_start F)) as (done & s & met & [I1 I2 I3 I4 I5 I6 I7] & U).
  destruct (Nat.lt_ge_cases h count) as [Lt|Ge]; [|rewrite (I7 h Ge) in E; discriminate E].
  pose proof (I6 h Lt) as P. destruct P as [m J1 J2 J3 J4 J5|J1 J2 J3 J4|q J1 J2 J3 J4|r' J1 J2 J3|r' J1 J2].
  - destruct (lock_moves h (padded h) (lock h) t' (proj1 (Lk h))) as (Pr & k & t2 & a & J & Mo & X & O & _).
    rewrite queueing_unfold. do 2 eexists. eapply mv_command; eauto.
  - discriminate E.
  - destruct (A Logic.I).
  - destruct (unlock_moves h (padded h) (unlock h) t' (proj2 (Lk h))) as (Pr & k & t2 & J & Mo & X & _).
    do 2 eexists. eapply mv_command; eauto. apply ordinary_good.
  - rewrite finish_ended in E. discriminate E.
Qed.
End Turns.

(** * A device that another host keeps *)
Section Kept.
Context {S T : Type} (tgt : nat -> target T) (plain : nat -> target S) (owner : T -> option nat) (inner : T -> S).
Hypothesis V : reservable tgt plain owner inner.

Lemma kept_waits : forall n h x padded lock unlock body t, locks lock -> owner t = Some x -> x <> h ->
  exists t', does (tgt h) padded t (taking_turn lock unlock n body) t' (Err EAsiSCSI) /\ inner t' = inner t /\ owner t' = Some x.
Proof.
  induction n as [|n IH]; intros h x padded lock unlock body t Lk O N.
  - destruct (lock_moves tgt plain owner inner V h padded lock t Lk) as (Pr & k & t2 & a & J & Mo & E & Or & Q & R).
    rewrite O in R. cbn in R. replace (Nat.eqb x h) with false in R by (symmetry; apply Nat.eqb_neq; exact N).
    destruct R as [(R1 & _)|(_ & R2 & R3)]; [discriminate R1|].
    exists t2. split; [|split; [exact Q|congruence]]. cbn [taking_turn]. eapply does_command; eauto. rewrite R2. cbv beta iota. constructor.
  - destruct (lock_moves tgt plain owner inner V h padded lock t Lk) as (Pr & k & t2 & a & J & Mo & E & Or & Q & R).
    rewrite O in R. cbn in R. replace (Nat.eqb x h) with false in R by (symmetry; apply Nat.eqb_neq; exact N).
    destruct R as [(R1 & _)|(_ & R2 & R3)]; [discriminate R1|].
    destruct (IH h x padded lock unlock body t2 Lk ltac:(congruence) N) as (t' & D & A & B).
    exists t'. split; [|split; [congruence|exact B]]. cbn [taking_turn]. eapply does_command; eauto. rewrite R2. cbv beta iota. exact D.
Qed.

Theorem kept_out : forall n h x padded lock unlock body t, locks lock -> unlocks unlock -> owner t = Some x -> x <> h ->
  exists t', does (tgt h) padded t (Do unlock (fun _ => taking_turn lock unlock n body)) t' (Err EAsiSCSI) /\ inner t' = inner t /\ owner t' = Some x.
Proof.
  intros n h x padded lock unlock body t Lk Uk O N.
  destruct (unlock_moves tgt plain owner inner V h padded unlock t Uk) as (Pr & k & t2 & J & Mo & E & Se & Q & R).
  rewrite O in R. cbn in R. replace (Nat.eqb x h) with false in R by (symmetry; apply Nat.eqb_neq; exact N).
  destruct (kept_waits n h x padded lock unlock body t2 Lk R N) as (t' & D & A & B).
  exists t'. split; [|split; [congruence|exact B]]. eapply does_command; eauto. apply ordinary_good.
Qed.

Theorem shut_out : forall h x padded c k t, proper c -> issued c = Ok k -> moderate k -> media_op (meaning c) -> owner t = Some x -> x <> h ->
  exists t', does (tgt h) padded t (Do c finish) t' (Err EAsiSCSI) /\ inner t' = inner t /\ owner t' = Some x.
Proof.
  intros h x padded c k t P J Mo Me O N.
  destruct (rv_shut _ _ _ _ V h t (command_of k) (data_out k) _ (meaning_issued _ _ P J) Me) as (t' & E & Q & R).
  { rewrite O. cbn. apply Nat.eqb_neq. exact N. }
  exists t'. split; [|split; [exact Q|congruence]]. eapply does_command; [exact P|exact J|exact Mo|exact E|apply conflict_ordinary|]. constructor.
Qed.
End Kept.

(** * Changing a block *)
Section Block.
Context {S : Type} (plain : target S) (content : S -> Z -> bytes) (bs capacity : Z).
Hypothesis D : block_device plain content bs capacity.
Hypothesis B : 1 <= bs < 2 ^ 31.
Hypothesis Cap : capacity <= 2 ^ 64.

Lemma plain_read : forall padded rd lba s, read_of rd lba 1 bs -> proper rd -> arguments_fit rd -> 0 <= lba < capacity ->
  exists k s1 a, issued rd = Ok k /\ moderate k /\ plain s (command_of k) (data_out k) = (s1, a) /\ ordinary a /\
    seen padded rd k a = Ok (PBytes (content s lba)) /\ forall j, 0 <= j < capacity -> content s1 j = content s j.
Proof.
  intros padded rd lba t R P F L. destruct B as [B1 B2].
  destruct (read_issue rd lba 1 bs B1 R P F) as (o & cdb & f & C & Q & I & Pr & L0 & _).
  destruct D as [Z1 RD _].
  destruct (RD t cdb [] lba 1 f I Pr L0 ltac:(lia) ltac:(lia)) as (t1 & E & K).
  rewrite Z.mul_1_l in Q. exists (ReadCmd cdb bs), t1, (good (blocks (content t) lba 1)).
  assert (J : issued rd = Ok (ReadCmd cdb bs)) by (unfold issued; rewrite C; exact Q).
  split; [exact J|]. split; [cbn; lia|]. split; [exact E|]. split; [apply ordinary_good|]. split; [|exact K].
  assert (X : blocks (content t) lba 1 = content t lba) by (cbn [blocks]; apply app_nil_r).
  rewrite X. pose proof (Z1 t lba L) as ZL.
  unfold seen. cbn [good a_status a_data]. cbn [Z.eqb]. rewrite C.
  assert (Y : (if padded then data_wanted (ReadCmd cdb bs) (content t lba) else win_data (ReadCmd cdb bs) (content t lba)) = Some (content t lba)).
  { assert (W : firstn (Z.to_nat bs) (content t lba) = content t lba) by (rewrite <- ZL; unfold zlen; rewrite Nat2Z.id; apply firstn_all).
    destruct padded; unfold data_wanted, win_data.
    - replace (0 <? bs) with true by (symmetry; apply Z.ltb_lt; lia). f_equal.
      rewrite <- ZL. unfold zlen. rewrite Nat2Z.id. apply pad_exact.
    - replace ((0 <? bs) && (0 <? zlen (content t lba))) with true by (symmetry; rewrite ZL; apply andb_true_iff; rewrite Z.ltb_lt; lia).
      f_equal. exact W. }
  rewrite Y. unfold yields. cbn [bind]. rewrite (read_finish _ _ _ _ _ R C). reflexivity.
Qed.
Lemma plain_write : forall padded lba s new, 0 <= lba < capacity -> zlen new = bs ->
  proper (Write16 lba new bs []) /\
  exists k s1 a, issued (Write16 lba new bs []) = Ok k /\ moderate k /\ plain s (command_of k) (data_out k) = (s1, a) /\ ordinary a /\
    seen padded (Write16 lba new bs []) k a = Ok PNone /\ content s1 lba = new /\
    forall j, 0 <= j < capacity -> j <> lba -> content s1 j = content s j.
Proof.
  intros padded lba t new L Zn. destruct D as [_ _ WR].
  assert (P : proper (Write16 lba new bs [])) by (cbn; split; [constructor|lia]).
  assert (F : arguments_fit (Write16 lba new bs [])).
  { cbn [arguments_fit]. unfold settings_fit, setting. cbn [lookup]. rewrite Zn, Z.mod_same, Z.div_same by lia.
    repeat split; try lia. repeat constructor; cbn; lia. }
  assert (W : write_of (Write16 lba new bs []) lba new bs) by (cbn; auto).
  destruct (write_issue _ lba new bs ltac:(lia) W P F) as (o & cdb & f & C & Q & I & Pr & L0 & Zd).
  rewrite Zn, Z.div_same in I by lia.
  destruct (WR t cdb new lba 1 f I Pr L0 ltac:(lia) ltac:(lia) ltac:(lia)) as (t1 & E & K).
  assert (J : issued (Write16 lba new bs []) = Ok (WriteCmd cdb new)) by (unfold issued; rewrite C; exact Q).
  split; [exact P|]. exists (WriteCmd cdb new), t1, (good []). split; [exact J|]. split; [unfold moderate; lia|].
  split; [exact E|]. split; [apply ordinary_good|]. split; [|split].
  - apply write_seen; [|exact J]. intros o' C'. eapply write_finish; eauto.
  - rewrite K by lia. unfold written. replace ((lba <=? lba) && (lba <? lba + 1)) with true
      by (symmetry; rewrite andb_true_iff, Z.leb_le, Z.ltb_lt; lia).
    rewrite Z.sub_diag. cbn [Z.mul Z.add]. unfold slice. rewrite skipn_O, Nat.sub_0_r.
    rewrite <- Zn. unfold zlen. rewrite Nat2Z.id. apply firstn_all.
  - intros j J1 J2. rewrite K by lia. unfold written. replace ((lba <=? j) && (j <? lba + 1)) with false; [reflexivity|].
    symmetry. rewrite andb_false_iff, Z.leb_gt, Z.ltb_ge. lia.
Qed.
Lemma overwriting_does : forall padded rd lba f s s1 r, read_of rd lba 1 bs -> proper rd -> arguments_fit rd -> 0 <= lba < capacity ->
  (forall b, zlen b = bs -> zlen (f b) = bs) -> does plain padded s (overwriting rd lba bs f) s1 r ->
  r = Ok PNone /\ content s1 lba = f (content s lba) /\ forall j, 0 <= j < capacity -> j <> lba -> content s1 j = content s j.
Proof.
  intros padded rd lba f s s1 r R P F L Hf X.
  assert (Zc : zlen (content s lba) = bs) by (destruct D as [Z1 _ _]; apply Z1; exact L).
  destruct (plain_read padded rd lba s R P F L) as (k & s2 & a & J & M & E & O & Se & K).
  destruct (plain_write padded lba s2 (f (content s lba)) L (Hf _ Zc)) as (P2 & k2 & s3 & a2 & J2 & M2 & E2 & O2 & Se2 & K2 & K3).
  assert (Y : does plain padded s (overwriting rd lba bs f) s3 (Ok PNone)).
  { unfold overwriting. eapply does_seen; eauto. cbv beta iota. eapply does_seen; eauto. apply does_finish. }
  destruct (does_det _ _ _ _ _ _ _ X _ _ Y) as [-> ->]. split; [reflexivity|]. split; [exact K2|].
  intros j J1 J3. rewrite K3 by assumption. apply K. exact J1.
Qed.
End Block.

Theorem changes_in_turn : forall S T (tgt : nat -> target T) (plain : nat -> target S) owner inner content bs capacity,
  reservable tgt plain owner inner -> (forall h, block_device (plain h) content bs capacity) -> 1 <= bs < 2 ^ 31 -> capacity <= 2 ^ 64 ->
  forall lba f rd lock unlock tries count padded, 0 <= lba < capacity ->
  (forall h b, zlen b = bs -> zlen (f h b) = bs) -> (forall h, read_of (rd h) lba 1 bs /\ proper (rd h) /\ arguments_fit (rd h)) ->
  (forall h, locks (lock h) /\ unlocks (unlock h)) ->
  forall t trace t' ps', owner t = None ->
  together tgt padded t (crowd count (fun h => taking_turn (lock h) (unlock h) (tries h) (overwriting (rd h) lba bs (f h)))) trace t' ps' ->
  exists order, NoDup order /\ (forall h, In h order <-> (h < count)%nat /\ ps' h = Return PNone) /\
    (forall h e, ps' h = Fail e -> e = EAsiSCSI /\ length (met_by h trace) = Datatypes.S (tries h) /\ Forall (taken owner h) (met_by h trace)) /\
    (owner t' = None -> content (inner t') lba = changed f order (content (inner t) lba) /\
       forall k, 0 <= k < capacity -> k <> lba -> content (inner t') k = content (inner t) k).
Proof.
  intros S T tgt plain owner inner content bs capacity V D B Cap lba f rd lock unlock tries count padded L Hf Hr Lk t trace t' ps' Fr G.
  assert (Nl : forall h, no_locks (overwriting (rd h) lba bs (f h))).
  { intro h. destruct (Hr h) as (R & _). cbn. split; [destruct (rd h); cbn in R; try contradiction; exact Logic.I|].
    intros [[]|e]; cbn; auto. split; [exact Logic.I|]. intros [v|e]; exact Logic.I. }
  assert (Idle : forall h, (count <= h)%nat -> ps' h = Return PNone).
  { destruct (turns_run tgt plain owner inner V lock unlock tries _ count padded Lk Nl t _ _ _ _ _ G _ _ _
      (turns_start plain owner inner lock unlock tries _ count padded t Fr)) as (? & ? & ? & [_ _ _ _ _ _ I7] & _). exact I7. }
  destruct (turn_by_turn tgt plain owner inner V lock unlock tries _ count padded Lk Nl t Fr trace t' ps' G)
    as (done & s & O & N & I1 & I2 & I3 & I4 & I5).
  assert (Q : forall h r, In (h, r) done -> r = Ok PNone).
  { clear - O D B Cap L Hf Hr. induction O as [s|s h s1 r rest s' X O IH]; intros x y; [intros []|].
    intros [E|E]; [injection E as <- <-|eapply IH; eauto].
    destruct (Hr h) as (R & P & F). eapply (overwriting_does (plain h) content bs capacity (D h) B Cap); eauto. }
  assert (W : content s lba = changed f (map fst done) (content (inner t) lba) /\
    forall k, 0 <= k < capacity -> k <> lba -> content s k = content (inner t) k).
  { clear - O D B Cap L Hf Hr. induction O as [s|s h s1 r rest s' X O IH]; [auto|].
    destruct (Hr h) as (R & P & F). destruct (overwriting_does (plain h) content bs capacity (D h) B Cap _ _ _ _ _ _ _ R P F L (Hf h) X) as (_ & A1 & A2).
    destruct IH as [A3 A4]. split.
    - rewrite A3, A1. reflexivity.
    - intros k K1 K2. rewrite A4 by assumption. apply A2; assumption. }
  exists (map fst done). split; [exact N|]. split; [|split].
  - intro h. split.
    + intro X. apply in_map_iff in X. destruct X as [[x r] [E X]]. cbn in E. subst x. pose proof (Q _ _ X). subst r.
      destruct (I1 _ _ X) as [Y1 Y2]. split; [exact Y1|]. destruct (ps' h); cbn in Y2; try discriminate Y2. congruence.
    + intros [Lt E]. destruct (I2 h (Ok PNone) Lt) as [X|[X _]]; [rewrite E; reflexivity|apply (in_map fst _ _ X)|discriminate X].
  - intros h e E. destruct (Nat.lt_ge_cases h count) as [Lt|Ge]; [|rewrite (Idle h Ge) in E; discriminate E].
    destruct (I2 h (Err e) Lt) as [X|(X & _ & X1 & X2)]; [rewrite E; reflexivity|discriminate (Q _ _ X)|].
    injection X as ->. auto.
  - intro X. rewrite (I5 X). exact W.
Qed.
