(** Facts about SpecTakeover.v. *)
From Coq Require Import String ZArith List Bool Lia PeanoNat.
From Verif Require Import Base BaseFacts Gen SpecGen Executer OsCommon OsLinux SpecSg SpecDrivers SpecSession Instruct Command
  CdbPrimary SpecDevice SpecCdb SpecExecute Sense SpecSense SpecPortable DiskFacts SpecReserve ReserveFacts SpecAdaptive AdaptiveFacts
  SpecShared SharedFacts SpecTakeover.
Import ListNotations.
Local Open Scope string_scope.
Local Open Scope list_scope.
Local Open Scope Z_scope.

Lemma alone_snoc : forall bs capacity d p d1 p1 d2 p2, alone bs capacity d p d1 p1 -> alone_step bs capacity d1 p1 d2 p2 -> alone bs capacity d p d2 p2.
Proof. intros bs capacity d p d1 p1 d2 p2 A S. induction A; eapply al_step; eauto. apply al_nil. Qed.
Lemma shut_snoc : forall bs capacity ty p p1 p2, shut bs capacity ty p p1 -> shut_step bs capacity ty p1 p2 -> shut bs capacity ty p p2.
Proof. intros bs capacity ty p p1 p2 A S. induction A; eapply sh_step; eauto. apply sh_nil. Qed.

Lemma seen_nice : forall padded c k a,
  seen padded c k a = match nice_expected padded k a with RespExn e => Err e | RespData d => yields (constructed c) d end.
Proof. intros padded c k a. unfold seen, nice_expected. destruct (a_status a =? 0); [reflexivity|]. destruct (a_status a =? 2); reflexivity. Qed.

(** * Reservations *)

Lemma one_holder_type : forall ty, one_holder ty -> valid_type ty = true /\ all_registrants ty = false.
Proof. intros ty H. unfold one_holder in H. cbn [In] in H. destruct H as [H|[H|[H|[H|[]]]]]; rewrite <- H; split; reflexivity. Qed.

Lemma key_stays_same : forall x (f : nat * Z -> bool) st g r k, pr_ok st -> key_of x st = Some k -> f (x, k) = true ->
  key_of x (PrState g (filter f (registered st)) r) = Some k.
Proof.
  intros x f st g r k P K F. pose proof (key_stays x f st g r k P K F) as R. unfold is_registered in R.
  destruct (key_of x (PrState g (filter f (registered st)) r)) as [k'|] eqn:E; [|discriminate R]. f_equal.
  unfold key_of in E. cbn [registered] in E. destruct (find _ _) as [[x' k0]|] eqn:G; [|discriminate E]. cbn in E. injection E as ->.
  apply find_some in G. destruct G as [I X]. cbn in X. apply Nat.eqb_eq in X. subst x'. apply filter_In in I. destruct I as [I _].
  destruct P as (_ & N & _). pose proof (registered_pair _ _ _ N I) as Y. congruence.
Qed.

(** The reservations after host [w] took over. *)
Definition succeeded (st : pr_state) (w : nat) (victim ty : Z) : pr_state :=
  PrState (next_generation (generation st))
    (filter (fun p => Nat.eqb (fst p) w || negb ((victim =? 0) || (snd p =? victim))) (registered st)) (Some (w, ty)).

Section Reservations.
Context (st : pr_state) (count v : nat) (key : nat -> Z) (victim ty : Z) (M : manned st count v key victim) (Ty : one_holder ty).

Lemma first_wins : forall w, (w < count)%nat -> w <> v -> pr_step w (Preempt (key w) victim ty) st = (succeeded st w victim ty, Granted).
Proof.
  intros w L N. destruct M as [P (ty0 & H & A) (Kv & Rv) Ks O]. destruct (Ks w L N) as (K & _).
  cbn [pr_step]. unfold with_key. rewrite K, Z.eqb_refl. unfold preempted, takes_over. rewrite H, A, Kv, Z.eqb_refl.
  rewrite (proj1 (one_holder_type ty Ty)). reflexivity.
Qed.
Lemma victim_in_time : may_read v st = true /\ may_write v st = true.
Proof.
  destruct M as [P (ty0 & H & A) _ _ _]. unfold may_read, may_write. rewrite H.
  assert (X : holds v st = true) by (unfold holds; rewrite H, A; apply Nat.eqb_refl). rewrite X. auto.
Qed.

Context (w : nat) (Lw : (w < count)%nat) (Nw : w <> v).
Notation st' := (succeeded st w victim ty).

Lemma succeeded_ok : pr_ok st'.
Proof.
  pose proof (first_wins w Lw Nw) as E. change st' with (fst (st', Granted)). rewrite <- E. apply pr_step_ok; [|apply M].
  destruct M as [_ _ (_ & Rv) _ _]. cbn. first [lia | split; lia | exact Logic.I | auto with zarith].
Qed.
Lemma later_lose : forall x, (x < count)%nat -> x <> v -> x <> w -> pr_step x (Preempt (key x) victim ty) st' = (st', Conflict).
Proof.
  intros x L N Nx. destruct M as [P (ty0 & H & A) (Kv & Rv) Ks O]. destruct (Ks x L N) as (K & _ & D). destruct (Ks w Lw Nw) as (K' & _ & D').
  assert (V0 : (victim =? 0) = false) by (apply Z.eqb_neq; lia).
  assert (X : key_of x st' = Some (key x)).
  { unfold succeeded. apply key_stays_same; auto. cbn. rewrite V0, (proj2 (Z.eqb_neq _ _) D). apply orb_true_r. }
  assert (W : key_of w st' = Some (key w)).
  { unfold succeeded. apply key_stays_same; auto. cbn. rewrite Nat.eqb_refl. reflexivity. }
  cbn [pr_step]. unfold with_key. rewrite X, Z.eqb_refl. unfold preempted.
  assert (T : takes_over victim st' = false).
  { unfold takes_over. change (held st') with (Some (w, ty)). cbv iota beta. rewrite W.
    rewrite (proj2 (one_holder_type ty Ty)). apply Z.eqb_neq. exact D'. }
  rewrite T, V0.
  assert (E : existsb (fun p => snd p =? victim) (registered st') = false).
  { destruct (existsb _ _) eqn:E; [|reflexivity]. exfalso. apply existsb_exists in E. destruct E as ([y k] & I & E). cbn in E.
    apply Z.eqb_eq in E. subst k. cbn [registered succeeded] in I. apply filter_In in I. destruct I as [I F]. cbn in F.
    rewrite Z.eqb_refl, orb_true_r, orb_false_r in F. apply Nat.eqb_eq in F. subst y. apply (O _ _ I Nw). reflexivity. }
  rewrite E. reflexivity.
Qed.
Lemma winner_in_time : may_read w st' = true /\ may_write w st' = true.
Proof.
  unfold may_read, may_write. change (held st') with (Some (w, ty)). cbv iota beta.
  assert (X : holds w st' = true).
  { unfold holds. change (held st') with (Some (w, ty)). cbv iota beta.
    rewrite (proj2 (one_holder_type ty Ty)). apply Nat.eqb_refl. }
  rewrite X. auto.
Qed.
Lemma victim_gone : is_registered v st' = false.
Proof.
  unfold succeeded. apply key_gone. intros k I. destruct M as [(_ & N & _) _ (Kv & _) _ _].
  pose proof (registered_pair _ _ _ N I) as X. rewrite Kv in X. injection X as <-. cbn.
  rewrite (proj2 (Nat.eqb_neq v w)) by auto. rewrite Z.eqb_refl, orb_true_r. reflexivity.
Qed.
Lemma victim_too_late : may_write v st' = false /\ (exclusive_access ty = true -> may_read v st' = false).
Proof.
  unfold may_read, may_write. change (held st') with (Some (w, ty)). cbv iota beta. rewrite victim_gone.
  assert (X : holds v st' = false).
  { unfold holds. change (held st') with (Some (w, ty)). cbv iota beta.
    rewrite (proj2 (one_holder_type ty Ty)).
    apply Nat.eqb_neq. auto. }
  rewrite X, andb_false_r. split; [reflexivity|]. intros ->. reflexivity.
Qed.
(** The other hosts may write if the reservation is one for registrants. *)
Lemma loser_writes : forall x, (x < count)%nat -> x <> v -> x <> w -> may_write x st' = for_registrants ty.
Proof.
  intros x L N Nx. destruct M as [P (ty0 & H & A) (Kv & Rv) Ks O]. destruct (Ks x L N) as (K & _ & D).
  assert (V0 : (victim =? 0) = false) by (apply Z.eqb_neq; lia).
  assert (X : key_of x st' = Some (key x)).
  { unfold succeeded. apply key_stays_same; auto. cbn. rewrite V0, (proj2 (Z.eqb_neq _ _) D). apply orb_true_r. }
  unfold may_write. change (held st') with (Some (w, ty)). cbv iota beta. unfold is_registered. rewrite X.
  assert (Y : holds x st' = false).
  { unfold holds. change (held st') with (Some (w, ty)). cbv iota beta.
    rewrite (proj2 (one_holder_type ty Ty)).
    apply Nat.eqb_neq. exact Nx. }
  rewrite Y, andb_true_r. reflexivity.
Qed.
End Reservations.

(** * Steps *)
Section Steps.
Context {T : Type} (tgt : nat -> target T) (view : T -> pr_state) (content : T -> Z -> bytes).
Context (bs capacity : Z) (sense : bytes) (padded : nat -> bool).
Context (Hbs : 1 <= bs) (Dev : shared_disk tgt view content bs capacity sense).
Notation same := (same_blocks capacity).

Lemma ideal_moves : forall h c d st1 d1 r t next met t1 p1, ideal_step bs capacity sense padded h c (view t) d st1 d1 r ->
  pr_ok (view t) -> same (content t) d -> moves (tgt h) (padded h) t (Do c next) met t1 p1 ->
  view t1 = st1 /\ same (content t1) d1 /\ p1 = next r.
Proof.
  intros h c d st1 d1 r t next met t1 p1 I P C X.
  destruct (one_command tgt view content bs capacity sense padded Hbs Dev h c _ d st1 d1 r t I P eq_refl C)
    as (k & t2 & a & Pc & J & Mo & E & N & R & V & C1 & _).
  destruct (moved tgt padded _ _ _ _ _ _ _ _ _ _ X J E) as (_ & -> & ->). rewrite seen_nice, R. auto.
Qed.
Lemma ideal_progress : forall h c d st1 d1 r t next, ideal_step bs capacity sense padded h c (view t) d st1 d1 r ->
  pr_ok (view t) -> same (content t) d -> exists t1 p1, moves (tgt h) (padded h) t (Do c next) [t] t1 p1.
Proof.
  intros h c d st1 d1 r t next I P C.
  destruct (one_command tgt view content bs capacity sense padded Hbs Dev h c _ d st1 d1 r t I P eq_refl C)
    as (k & t2 & a & Pc & J & Mo & E & N & R & V & C1 & _).
  do 2 eexists. eapply mv_command; eauto.
Qed.
Lemma together_ideal : forall h c d st1 d1 r t next ps (Q : T -> (nat -> prog) -> Prop),
  ideal_step bs capacity sense padded h c (view t) d st1 d1 r -> pr_ok (view t) -> same (content t) d -> ps h = Do c next ->
  (forall t1, view t1 = st1 -> pr_ok (view t1) -> same (content t1) d1 ->
     exists trace t' ps', together tgt padded t1 (replaced h (next r) ps) trace t' ps' /\ Q t' ps') ->
  exists trace t' ps', together tgt padded t ps trace t' ps' /\ Q t' ps'.
Proof.
  intros h c d st1 d1 r t next ps Q I P C E K.
  destruct (one_command tgt view content bs capacity sense padded Hbs Dev h c _ d st1 d1 r t I P eq_refl C)
    as (k & t2 & a & Pc & J & Mo & X & N & R & V & C1 & P1).
  destruct (K t2 V ltac:(rewrite V; exact P1) C1) as (trace & t' & ps' & G & Y). exists (map (pair h) [t] ++ trace), t', ps'. split; [|exact Y].
  eapply tg_step; [|exact G]. rewrite E, <- R, <- seen_nice. eapply mv_command; eauto.
Qed.
Lemma step_read : forall h c lba n st d, reads bs capacity c lba n ->
  ideal_step bs capacity sense padded h c st d st d (if may_read h st then Ok (PBytes (blocks d lba (Z.to_nat n))) else Err EAsiSCSI).
Proof. intros h c lba n st d (R1 & R2 & R3 & R4 & R5 & R6). apply is_read; assumption. Qed.
Lemma step_write : forall h c lba data st d, writes bs capacity c lba data ->
  ideal_step bs capacity sense padded h c st d st (if may_write h st then written bs lba (zlen data / bs) data d else d)
    (if may_write h st then Ok PNone else Err EAsiSCSI).
Proof. intros h c lba data st d (R1 & R2 & R3 & R4 & R5). apply is_write; assumption. Qed.

Lemma free_moves : forall h t q met t1 q1, moves (tgt h) (padded h) t q met t1 q1 -> forall d, only_io bs capacity q -> pr_ok (view t) ->
  same (content t) d -> may_read h (view t) = true -> may_write h (view t) = true ->
  only_io bs capacity q1 /\ view t1 = view t /\ exists d1, alone_step bs capacity d q d1 q1 /\ same (content t1) d1.
Proof.
  intros h t q met t1 q1 X. remember (tgt h) as g eqn:G. remember (padded h) as pd eqn:Pd.
  assert (Cmd : forall c next met t1 q1 t, moves g pd t (Do c next) met t1 q1 -> forall d, only_io bs capacity (Do c next) -> pr_ok (view t) ->
    same (content t) d -> may_read h (view t) = true -> may_write h (view t) = true ->
    only_io bs capacity q1 /\ view t1 = view t /\ exists d1, alone_step bs capacity d (Do c next) d1 q1 /\ same (content t1) d1).
  { clear X t q met t1 q1. subst g pd. intros c next met t1 q1 t X d O P C Rd Wr. cbn [only_io] in O. destruct O as [[(lba & n & O)|(lba & data & O)] N].
    - pose proof (step_read h c lba n (view t) d O) as I. rewrite Rd in I.
      destruct (ideal_moves _ _ _ _ _ _ _ _ _ _ _ I P C X) as (V & C1 & ->). split; [apply N|]. split; [exact V|].
      eexists. split; [eapply as_read; exact O|exact C1].
    - pose proof (step_write h c lba data (view t) d O) as I. rewrite Wr in I.
      destruct (ideal_moves _ _ _ _ _ _ _ _ _ _ _ I P C X) as (V & C1 & ->). split; [apply N|]. split; [exact V|].
      eexists. split; [eapply as_write; exact O|exact C1]. }
  induction X as [t c next e J|t c next k t1 a Pc J Mo E Or|t q next met t1 q1 X IH|t v next|t e next]; intros d O P C Rd Wr.
  - eapply Cmd; eauto. apply mv_refused. exact J.
  - eapply Cmd; eauto. eapply mv_command; eauto.
  - cbn [only_io] in O. destruct O as [O1 O2]. destruct (IH d O1 P C Rd Wr) as (A & B & d1 & D & E).
    split; [split; assumption|]. split; [exact B|]. exists d1. split; [apply as_inside; exact D|exact E].
  - cbn [only_io] in O. split; [apply O|]. split; [reflexivity|]. exists d. split; [apply as_back|exact C].
  - cbn [only_io] in O. split; [apply O|]. split; [reflexivity|]. exists d. split; [apply as_thrown|exact C].
Qed.
Lemma shut_moves : forall ty h t q met t1 q1, moves (tgt h) (padded h) t q met t1 q1 -> forall d, only_io bs capacity q -> pr_ok (view t) ->
  same (content t) d -> may_write h (view t) = false -> (exclusive_access ty = true -> may_read h (view t) = false) ->
  only_io bs capacity q1 /\ view t1 = view t /\ same (content t1) d /\ shut_step bs capacity ty q q1.
Proof.
  intros ty h t q met t1 q1 X. remember (tgt h) as g eqn:G. remember (padded h) as pd eqn:Pd.
  assert (Cmd : forall c next met t1 q1 t, moves g pd t (Do c next) met t1 q1 -> forall d, only_io bs capacity (Do c next) -> pr_ok (view t) ->
    same (content t) d -> may_write h (view t) = false -> (exclusive_access ty = true -> may_read h (view t) = false) ->
    only_io bs capacity q1 /\ view t1 = view t /\ same (content t1) d /\ shut_step bs capacity ty (Do c next) q1).
  { clear X t q met t1 q1. subst g pd. intros c next met t1 q1 t X d O P C Wr Rd. cbn [only_io] in O. destruct O as [[(lba & n & O)|(lba & data & O)] N].
    - pose proof (step_read h c lba n (view t) d O) as I.
      destruct (ideal_moves _ _ _ _ _ _ _ _ _ _ _ I P C X) as (V & C1 & ->). split; [apply N|]. split; [exact V|].
      split; [exact C1|]. eapply ss_read; [exact O|]. intro Y. rewrite (Rd Y). reflexivity.
    - pose proof (step_write h c lba data (view t) d O) as I. rewrite Wr in I.
      destruct (ideal_moves _ _ _ _ _ _ _ _ _ _ _ I P C X) as (V & C1 & ->). split; [apply N|]. split; [exact V|].
      split; [exact C1|]. eapply ss_write; exact O. }
  induction X as [t c next e J|t c next k t1 a Pc J Mo E Or|t q next met t1 q1 X IH|t v next|t e next]; intros d O P C Wr Rd.
  - eapply Cmd; eauto. apply mv_refused. exact J.
  - eapply Cmd; eauto. eapply mv_command; eauto.
  - cbn [only_io] in O. destruct O as [O1 O2]. destruct (IH d O1 P C Wr Rd) as (A & B & D & E).
    split; [split; assumption|]. split; [exact B|]. split; [exact D|]. apply ss_inside; exact E.
  - cbn [only_io] in O. split; [apply O|]. split; [reflexivity|]. split; [exact C|apply ss_back].
  - cbn [only_io] in O. split; [apply O|]. split; [reflexivity|]. split; [exact C|apply ss_thrown].
Qed.
Lemma io_progress : forall h q t, only_io bs capacity q -> pr_ok (view t) -> ended q = None ->
  exists m t1 p1, moves (tgt h) (padded h) t q m t1 p1.
Proof.
  intros h q t. induction q as [v|e|c next IH|q IHq next IH]; intros O P E; try discriminate E.
  - cbn [only_io] in O. destruct O as [[(lba & n & O)|(lba & data & O)] N]; exists [t].
    + eapply ideal_progress; [eapply step_read; exact O|exact P|intros k _; reflexivity].
    + eapply ideal_progress; [eapply step_write; exact O|exact P|intros k _; reflexivity].
  - cbn [only_io] in O. destruct O as [O1 O2]. destruct (ended q) as [r|] eqn:F.
    + destruct q; try discriminate F; do 3 eexists; [apply mv_back|apply mv_thrown].
    + destruct (IHq O1 P eq_refl) as (m & t1 & p1 & X). do 3 eexists. apply mv_inside. exact X.
Qed.
End Steps.

(** * Taking over *)
Section Takeover.
Context {T : Type} (tgt : nat -> target T) (view : T -> pr_state) (content : T -> Z -> bytes).
Context (bs capacity : Z) (sense : bytes) (padded : nat -> bool).
Context (Hbs : 1 <= bs) (Dev : shared_disk tgt view content bs capacity sense).
Context (count v : nat) (key : nat -> Z) (victim ty : Z) (sa : nat -> Z) (zombie : prog) (body : nat -> prog) (t0 : T).
Hypothesis M : manned (view t0) count v key victim.
Hypothesis Ty : one_holder ty.
Hypothesis Sa : forall h, sa h = 4 \/ sa h = 5.
Hypothesis Oz : only_io bs capacity zombie.
Hypothesis Ob : forall h, only_io bs capacity (body h).
Notation same := (same_blocks capacity).
Definition start : nat -> prog := cast count v zombie (fun h => taking_over (sa h) (key h) victim ty (body h)).

Lemma step_preempt : forall h st d, (h < count)%nat -> h <> v ->
  ideal_step bs capacity sense padded h (preempt (sa h) (key h) victim ty) st d
    (fst (pr_step h (Preempt (key h) victim ty) st)) d (verdict_result sense (snd (pr_step h (Preempt (key h) victim ty) st))).
Proof.
  intros h st d L N. destruct M as [_ _ (_ & Rv) Ks _]. destruct (Ks h L N) as (_ & Rk & _). apply is_out.
  - unfold basic_fits. split; [exact Rk|]. split; [lia|]. split; [unfold one_holder in Ty; cbn in Ty; lia|]. repeat constructor; cbn; lia.
  - destruct (Sa h) as [-> | ->]; reflexivity.
Qed.

Inductive situation (t : T) (ps : nat -> prog) : Prop :=
| si_before : forall d, only_io bs capacity (ps v) -> alone bs capacity (content t0) zombie d (ps v) -> view t = view t0 -> same (content t) d ->
    (forall h, h <> v -> ps h = start h) -> situation t ps
| si_after : forall w d q d', (w < count)%nat -> w <> v -> only_io bs capacity (ps v) -> only_io bs capacity (ps w) ->
    view t = succeeded (view t0) w victim ty ->
    alone bs capacity (content t0) zombie d q -> shut bs capacity ty q (ps v) ->
    alone bs capacity d (body w) d' (ps w) -> same (content t) d' ->
    (forall h, h <> v -> h <> w -> ps h = start h \/ (h < count)%nat /\ ps h = Fail EAsiSCSI) -> situation t ps.

Lemma start_idle : forall h, h <> v -> (count <= h)%nat -> start h = Return PNone.
Proof.
  intros h N L. unfold start, cast, crowd. rewrite (proj2 (Nat.eqb_neq h v)) by auto. destruct (Nat.ltb_spec h count); [lia|reflexivity].
Qed.
Lemma start_takes : forall h, h <> v -> (h < count)%nat -> start h = taking_over (sa h) (key h) victim ty (body h).
Proof.
  intros h N L. unfold start, cast, crowd. rewrite (proj2 (Nat.eqb_neq h v)) by auto. destruct (Nat.ltb_spec h count); [reflexivity|lia].
Qed.

Lemma situation_step : forall t ps h m t1 p1, situation t ps -> moves (tgt h) (padded h) t (ps h) m t1 p1 -> situation t1 (replaced h p1 ps).
Proof.
  intros t ps h m t1 p1 I X. pose proof (mn_ok _ _ _ _ _ M) as P0.
  assert (Self : replaced h p1 ps h = p1) by (unfold replaced; rewrite Nat.eqb_refl; reflexivity).
  assert (Else : forall x, x <> h -> replaced h p1 ps x = ps x) by (intros x Nx; unfold replaced; rewrite (proj2 (Nat.eqb_neq x h)) by auto; reflexivity).
  destruct I as [d O A V C S|w d q d' Lw Nw Oq Ow V A Sh Aw C S].
  - destruct (Nat.eq_dec h v) as [->|N].
    + destruct (victim_in_time _ _ _ _ _ M) as [Rd Wr].
      destruct (free_moves tgt view content bs capacity sense padded Hbs Dev _ _ _ _ _ _ X d O ltac:(rewrite V; exact P0) C ltac:(rewrite V; exact Rd) ltac:(rewrite V; exact Wr))
        as (O1 & V1 & d1 & D & C1).
      apply (si_before _ _ d1); [rewrite Self; exact O1|rewrite Self; eapply alone_snoc; eauto|congruence|exact C1|].
      intros x Nx. rewrite Else by exact Nx. apply S. exact Nx.
    + rewrite (S h N) in X. destruct (Nat.lt_ge_cases h count) as [L|L]; [|rewrite (start_idle h N L) in X; inversion X].
      rewrite (start_takes h N L) in X. pose proof (step_preempt h (view t) d L N) as St. rewrite V in St.
      rewrite (first_wins _ _ _ _ _ _ M Ty h L N) in St. cbn [fst snd verdict_result] in St. rewrite <- V in St at 1.
      destruct (ideal_moves tgt view content bs capacity sense padded Hbs Dev _ _ _ _ _ _ _ _ _ _ _ St ltac:(rewrite V; exact P0) C X) as (V1 & C1 & ->).
      apply (si_after _ _ h d (ps v) d); auto.
      * rewrite Else by auto. exact O.
      * rewrite Self. apply Ob.
      * rewrite Else by auto. apply sh_nil.
      * rewrite Self. apply al_nil.
      * intros x Nx Nh. left. rewrite Else by exact Nh. apply S. exact Nx.
  - assert (P1 : pr_ok (view t)) by (rewrite V; apply (succeeded_ok _ _ _ _ _ _ M Ty w Lw Nw)).
    destruct (Nat.eq_dec h v) as [->|N]; [|destruct (Nat.eq_dec h w) as [->|Nhw]].
    + destruct (victim_too_late (view t0) count v key victim ty M Ty w Nw) as [Wr Rd]. rewrite <- V in Wr, Rd.
      destruct (shut_moves tgt view content bs capacity sense padded Hbs Dev ty _ _ _ _ _ _ X d' Oq P1 C Wr Rd) as (O1 & V1 & C1 & D).
      apply (si_after _ _ w d q d'); auto.
      * rewrite Self. exact O1.
      * rewrite Else by auto. exact Ow.
      * congruence.
      * rewrite Self. eapply shut_snoc; eauto.
      * rewrite Else by auto. exact Aw.
      * intros x Nx Nh. rewrite Else by exact Nx. apply S; assumption.
    + destruct (winner_in_time (view t0) victim ty Ty w) as [Rd Wr]. rewrite <- V in Wr, Rd.
      destruct (free_moves tgt view content bs capacity sense padded Hbs Dev _ _ _ _ _ _ X d' Ow P1 C Rd Wr) as (O1 & V1 & d1 & D & C1).
      apply (si_after _ _ w d q d1); auto.
      * rewrite Else by auto. exact Oq.
      * rewrite Self. exact O1.
      * congruence.
      * rewrite Else by auto. exact Sh.
      * rewrite Self. eapply alone_snoc; eauto.
      * intros x Nx Nh. rewrite Else by exact Nh. apply S; assumption.
    + destruct (S h N Nhw) as [E|[L E]]; rewrite E in X; [|inversion X].
      destruct (Nat.lt_ge_cases h count) as [L|L]; [|rewrite (start_idle h N L) in X; inversion X].
      rewrite (start_takes h N L) in X. pose proof (step_preempt h (view t) d' L N) as St. rewrite V in St.
      rewrite (later_lose _ _ _ _ _ _ M Ty w Lw Nw h L N Nhw) in St. cbn [fst snd verdict_result] in St. rewrite <- V in St.
      destruct (ideal_moves tgt view content bs capacity sense padded Hbs Dev _ _ _ _ _ _ _ _ _ _ _ St P1 C X) as (V1 & C1 & ->).
      apply (si_after _ _ w d q d'); auto.
      * rewrite Else by auto. exact Oq.
      * rewrite Else by auto. exact Ow.
      * congruence.
      * rewrite Else by auto. exact Sh.
      * rewrite Else by auto. exact Aw.
      * intros x Nx Nxw. destruct (Nat.eq_dec x h) as [->|Nh]; [right; rewrite Self; auto|]. rewrite Else by exact Nh. apply S; assumption.
Qed.
Lemma situations : forall t ps trace t' ps', together tgt padded t ps trace t' ps' -> situation t ps -> situation t' ps'.
Proof. intros t ps trace t' ps' G. induction G; intro I; [exact I|]. apply IHG. eapply situation_step; eauto. Qed.
Lemma situation_start : situation t0 start.
Proof.
  apply (si_before _ _ (content t0)).
  - unfold start, cast. rewrite Nat.eqb_refl. exact Oz.
  - unfold start, cast. rewrite Nat.eqb_refl. apply al_nil.
  - reflexivity.
  - intros k _. reflexivity.
  - reflexivity.
Qed.

Theorem takeover : forall trace t' ps', together tgt padded t0 start trace t' ps' ->
  exists d q, alone bs capacity (content t0) zombie d q /\
    ((ps' v = q /\ view t' = view t0 /\ same_blocks capacity (content t') d /\ forall h, h <> v -> ps' h = start h) \/
     exists w d', (w < count)%nat /\ w <> v /\ held (view t') = Some (w, ty) /\ is_registered v (view t') = false /\
       alone bs capacity d (body w) d' (ps' w) /\ same_blocks capacity (content t') d' /\ shut bs capacity ty q (ps' v) /\
       forall h, h <> v -> h <> w -> ps' h = start h \/ (h < count)%nat /\ ps' h = Fail EAsiSCSI).
Proof.
  intros trace t' ps' G. destruct (situations _ _ _ _ _ G situation_start) as [d O A V C S|w d q d' Lw Nw Oq Ow V A Sh Aw C S].
  - exists d, (ps' v). split; [exact A|]. left. auto.
  - exists d, q. split; [exact A|]. right. exists w, d'. split; [exact Lw|]. split; [exact Nw|]. split; [rewrite V; reflexivity|].
    split; [|auto]. rewrite V. apply (victim_gone _ _ _ _ _ _ M w Nw).
Qed.

Theorem takeover_moves : forall trace t' ps' h, together tgt padded t0 start trace t' ps' -> ended (ps' h) = None ->
  exists m t1 p1, moves (tgt h) (padded h) t' (ps' h) m t1 p1.
Proof.
  intros trace t' ps' h G E. pose proof (mn_ok _ _ _ _ _ M) as P0.
  assert (St : forall x, x <> v -> ps' x = start x -> ended (ps' x) = None -> pr_ok (view t') -> exists m t1 p1, moves (tgt x) (padded x) t' (ps' x) m t1 p1).
  { intros x N S F P. rewrite S in *. destruct (Nat.lt_ge_cases x count) as [L|L]; [|rewrite (start_idle x N L) in F; discriminate F].
    rewrite (start_takes x N L). exists [t']. eapply (ideal_progress tgt view content bs capacity sense padded Hbs Dev x);
      [apply (step_preempt x _ (content t') L N)|exact P|intros k _; reflexivity]. }
  destruct (situations _ _ _ _ _ G situation_start) as [d O A V C S|w d q d' Lw Nw Oq Ow V A Sh Aw C S].
  - assert (P1 : pr_ok (view t')) by congruence. destruct (Nat.eq_dec h v) as [->|N]; [|apply St; auto].
    eapply io_progress; eauto.
  - assert (P1 : pr_ok (view t')) by (rewrite V; apply (succeeded_ok _ _ _ _ _ _ M Ty w Lw Nw)).
    destruct (Nat.eq_dec h v) as [->|N]; [eapply io_progress; eauto|]. destruct (Nat.eq_dec h w) as [->|Nhw]; [eapply io_progress; eauto|].
    destruct (S h N Nhw) as [F|[_ F]]; [apply St; auto|]. rewrite F in E. discriminate E.
Qed.

Theorem one_winner : forall trace t' ps', together tgt padded t0 start trace t' ps' ->
  forall x r, (x < count)%nat -> x <> v -> ended (ps' x) = Some r ->
  exists w d q d', (w < count)%nat /\ w <> v /\ held (view t') = Some (w, ty) /\ alone bs capacity (content t0) zombie d q /\
    alone bs capacity d (body w) d' (ps' w) /\ same_blocks capacity (content t') d' /\
    (forall h r, (h < count)%nat -> h <> v -> h <> w -> ended (ps' h) = Some r -> r = Err EAsiSCSI).
Proof.
  intros trace t' ps' G x r L N E. destruct (takeover _ _ _ G) as (d & q & A & [(_ & _ & _ & S)|(w & d' & Lw & Nw & H & R & Aw & C & _ & S)]).
  - rewrite (S x N), (start_takes x N L) in E. discriminate E.
  - exists w, d, q, d'. repeat (split; [assumption|]). intros h r' Lh Nh Nw' F. destruct (S h Nh Nw') as [X|[_ X]]; rewrite X in F.
    + rewrite (start_takes h Nh Lh) in F. discriminate F.
    + injection F as <-. reflexivity.
Qed.

(** A host that does not stop though its PREEMPT failed. *)
Lemma ideal_does : forall h c d st1 d1 r t next t' x, ideal_step bs capacity sense padded h c (view t) d st1 d1 r ->
  pr_ok (view t) -> same (content t) d ->
  (forall t1, view t1 = st1 -> same (content t1) d1 -> exists t2, t' t2 /\ does (tgt h) (padded h) t1 (next r) t2 x) ->
  exists t2, t' t2 /\ does (tgt h) (padded h) t (Do c next) t2 x.
Proof.
  intros h c d st1 d1 r t next t' x I P C K.
  destruct (one_command tgt view content bs capacity sense padded Hbs Dev h c _ d st1 d1 r t I P eq_refl C)
    as (k & t2 & a & Pc & J & Mo & E & N & R & V & C1 & _).
  destruct (K t2 V C1) as (t3 & A & D). exists t3. split; [exact A|]. eapply does_command; eauto. rewrite seen_nice, R. exact D.
Qed.
Theorem loser_goes_on : forall w x c lba data t, (w < count)%nat -> w <> v -> (x < count)%nat -> x <> v -> x <> w ->
  writes bs capacity c lba data -> view t = view t0 ->
  exists t1, does (tgt w) (padded w) t (Do (preempt (sa w) (key w) victim ty) finish) t1 (Ok PNone) /\
  exists t2, does (tgt x) (padded x) t1 (Do (preempt (sa x) (key x) victim ty) (fun _ => Do c finish)) t2
      (if for_registrants ty then Ok PNone else Err EAsiSCSI) /\
    same_blocks capacity (content t2) (if for_registrants ty then written bs lba (zlen data / bs) data (content t) else content t).
Proof.
  intros w x c lba data t Lw Nw Lx Nx Nxw Wc V. pose proof (mn_ok _ _ _ _ _ M) as P0.
  pose proof (step_preempt w (view t) (content t) Lw Nw) as S1. rewrite V in S1. rewrite (first_wins _ _ _ _ _ _ M Ty w Lw Nw) in S1.
  cbn [fst snd verdict_result] in S1. rewrite <- V in S1 at 1.
  destruct (ideal_does w _ _ _ _ _ t finish (fun t1 => view t1 = succeeded (view t0) w victim ty /\ same (content t1) (content t)) (Ok PNone) S1) as (t1 & (V1 & C1) & D1).
  { rewrite V. exact P0. } { intros k _. reflexivity. }
  { intros t1 A B. exists t1. split; [auto|]. constructor. }
  exists t1. split; [exact D1|].
  assert (P1 : pr_ok (view t1)) by (rewrite V1; apply (succeeded_ok _ _ _ _ _ _ M Ty w Lw Nw)).
  pose proof (step_preempt x (view t1) (content t) Lx Nx) as S2. rewrite V1 in S2.
  rewrite (later_lose _ _ _ _ _ _ M Ty w Lw Nw x Lx Nx Nxw) in S2. cbn [fst snd verdict_result] in S2. rewrite <- V1 in S2.
  destruct (ideal_does x _ _ _ _ _ t1 (fun _ => Do c finish)
    (fun t2 => same (content t2) (if for_registrants ty then written bs lba (zlen data / bs) data (content t) else content t))
    (if for_registrants ty then Ok PNone else Err EAsiSCSI) S2 P1 C1) as (t2 & C2 & D2).
  { intros t2 A B. pose proof (step_write bs capacity sense padded x c lba data (view t2) (content t) Wc) as S3.
    replace (may_write x (view t2)) with (for_registrants ty) in S3.
    2:{ rewrite A, V1. symmetry. apply (loser_writes _ _ _ _ _ _ M Ty w); assumption. }
    eapply ideal_does; [exact S3|rewrite A; exact P1|exact B|].
    intros t3 _ E. exists t3. split; [exact E|]. destruct (for_registrants ty); constructor. }
  exists t2. auto.
Qed.
End Takeover.
