(** Facts about SpecLock.v. *)
From Coq Require Import String ZArith List Bool Lia PeanoNat.
From Verif Require Import Base BaseFacts Gen SpecGen Executer OsCommon OsLinux SpecSg SpecDrivers SpecSession Instruct Command
  CdbPrimary SpecDevice SpecCdb SpecExecute Sense SpecSense SpecPortable DiskFacts SpecReserve SpecAdaptive AdaptiveFacts
  SpecShared SharedFacts SpecTurns TurnsFacts SpecTakeover TakeoverFacts SpecLock.
From Verif Require CloneFacts.
Import ListNotations.
Local Open Scope string_scope.
Local Open Scope list_scope.
Local Open Scope Z_scope.

Lemma blocks_ext : forall n (a b : Z -> bytes) lba, (forall k, lba <= k < lba + Z.of_nat n -> a k = b k) -> blocks a lba n = blocks b lba n.
Proof.
  induction n as [|n IH]; intros a b lba H; cbn [blocks]; [reflexivity|].
  rewrite (H lba) by lia. f_equal. apply IH. intros k K. apply H. lia.
Qed.
Lemma in_order_snoc : forall bs capacity body d done d1 h d2 p r, in_order bs capacity body d done d1 ->
  alone bs capacity d1 (body h) d2 p -> ended p = Some r -> in_order bs capacity body d (done ++ [(h, r)]) d2.
Proof.
  intros bs capacity body d done d1 h d2 p r H A E. induction H; cbn [app]; [eapply io_cons; [exact A|exact E|constructor]|].
  eapply io_cons; eauto.
Qed.
Lemma finish_ended : forall r, ended (finish r) = Some r.
Proof. intros [v|e]; reflexivity. Qed.

Section Lock.
Context {T : Type} (tgt : nat -> target T) (content : T -> Z -> bytes) (bs capacity : Z) (sense : bytes).
Hypothesis D : compare_disk tgt content bs capacity sense.
Hypothesis B : 1 <= bs < 2 ^ 31.
Hypothesis Cap : capacity <= 2 ^ 64.

(** * The commands *)

Lemma some_read : forall h padded c first n t, reads bs capacity c first n ->
  exists k t1 a, proper c /\ issued c = Ok k /\ moderate k /\ tgt h t (command_of k) (data_out k) = (t1, a) /\ ordinary a /\ 0 <= first /\
    zlen (blocks (content t) first (Z.to_nat n)) = n * bs /\
    seen padded c k a = Ok (PBytes (blocks (content t) first (Z.to_nat n))) /\ forall j, 0 <= j < capacity -> content t1 j = content t j.
Proof.
  intros h padded c first n t (R & P & F & N & C & M). destruct B as [B1 B2].
  destruct (read_issue c first n bs B1 R P F) as (o & cdb & f & Co & Q & I & Pr & L0 & _).
  destruct D as [BD _ _]. destruct (BD h) as [Z1 RD _].
  destruct (RD t cdb [] first n f I Pr L0 ltac:(lia) C) as (t1 & E & K).
  assert (ZL : zlen (blocks (content t) first (Z.to_nat n)) = n * bs).
  { rewrite (DiskFacts.blocks_length bs capacity) by (try lia; apply Z1). rewrite Z2Nat.id by lia. reflexivity. }
  assert (J : issued c = Ok (ReadCmd cdb (n * bs))) by (unfold issued; rewrite Co; exact Q).
  exists (ReadCmd cdb (n * bs)), t1, (good (blocks (content t) first (Z.to_nat n))).
  split; [exact P|]. split; [exact J|]. split; [cbn; nia|]. split; [exact E|]. split; [apply ordinary_good|]. split; [exact L0|]. split; [exact ZL|].
  split; [|exact K]. rewrite <- ZL in J |- *. rewrite CloneFacts.full_seen by (exact J || (rewrite ZL; nia)).
  rewrite Co. unfold yields. cbn [bind]. rewrite (read_finish _ _ _ _ _ R Co). reflexivity.
Qed.
Lemma some_write : forall h padded c first data t, writes bs capacity c first data ->
  exists k t1 a, proper c /\ issued c = Ok k /\ moderate k /\ tgt h t (command_of k) (data_out k) = (t1, a) /\ ordinary a /\
    seen padded c k a = Ok PNone /\ forall j, 0 <= j < capacity -> content t1 j = written bs first (zlen data / bs) data (content t) j.
Proof.
  intros h padded c first data t (W & P & F & C & M). destruct B as [B1 B2].
  destruct (write_issue c first data bs B1 W P F) as (o & cdb & f & Co & Q & I & Pr & L0 & Zd).
  destruct D as [BD _ _]. destruct (BD h) as [_ _ WR].
  destruct (WR t cdb data first (zlen data / bs) f I Pr L0 ltac:(apply Z.div_pos; unfold zlen; lia) C Zd) as (t1 & E & K).
  assert (J : issued c = Ok (WriteCmd cdb data)) by (unfold issued; rewrite Co; exact Q).
  exists (WriteCmd cdb data), t1, (good []). split; [exact P|]. split; [exact J|]. split; [cbn; lia|]. split; [exact E|]. split; [apply ordinary_good|].
  split; [|exact K]. apply write_seen; [|exact J]. intros o' C'. eapply write_finish; eauto.
Qed.

Context (lba : Z).
Hypothesis L : 0 <= lba < capacity.

Definition beside (c d : Z -> bytes) : Prop := forall k, 0 <= k < capacity -> k <> lba -> c k = d k.

(** * A step of a body *)
Lemma body_moves : forall h padded t q met t1 q1, moves (tgt h) padded t q met t1 q1 -> forall d, elsewhere bs capacity lba q -> beside (content t) d ->
  elsewhere bs capacity lba q1 /\ content t1 lba = content t lba /\
  exists d1, alone_step bs capacity d q d1 q1 /\ beside (content t1) d1 /\ d1 lba = d lba.
Proof.
  intros h padded t q met t1 q1 X. remember (tgt h) as g eqn:G. revert G.
  assert (Cmd : forall c next met t1 q1 t, moves (tgt h) padded t (Do c next) met t1 q1 -> forall d, elsewhere bs capacity lba (Do c next) -> beside (content t) d ->
    elsewhere bs capacity lba q1 /\ content t1 lba = content t lba /\
    exists d1, alone_step bs capacity d (Do c next) d1 q1 /\ beside (content t1) d1 /\ d1 lba = d lba).
  { clear X t q met t1 q1. intros c next met t1 q1 t X d O S. cbn [elsewhere] in O. destruct O as [(first & n & R & Off & N)|(first & data & R & Off & N)].
    - destruct (some_read h padded c first n t R) as (k & t2 & a & Pc & J & Mo & E & Or & L0 & ZL & Se & K).
      destruct (moved tgt (fun _ => padded) _ _ _ _ _ _ _ _ _ _ X J E) as (_ & -> & ->). cbv beta in Se |- *. rewrite Se.
      assert (Y : blocks (content t) first (Z.to_nat n) = blocks d first (Z.to_nat n)).
      { apply blocks_ext. intros j Hj. destruct R as (_ & _ & _ & R1 & R2 & _). rewrite Z2Nat.id in Hj by lia. apply S; lia. }
      split; [apply N; exact ZL|]. split; [apply K; exact L|]. exists d. rewrite Y. split; [eapply as_read; exact R|]. split; [|reflexivity].
      intros j J1 J2. rewrite K by exact J1. apply S; assumption.
    - destruct (some_write h padded c first data t R) as (k & t2 & a & Pc & J & Mo & E & Or & Se & K).
      destruct (moved tgt (fun _ => padded) _ _ _ _ _ _ _ _ _ _ X J E) as (_ & -> & ->). cbv beta in Se |- *. rewrite Se.
      assert (Y : forall e, written bs first (zlen data / bs) data e lba = e lba).
      { intro e. unfold written. replace ((first <=? lba) && (lba <? first + zlen data / bs)) with false; [reflexivity|].
        symmetry. rewrite andb_false_iff, Z.leb_gt, Z.ltb_ge. lia. }
      split; [exact N|]. split; [rewrite K by exact L; apply Y|]. exists (written bs first (zlen data / bs) data d).
      split; [eapply as_write; exact R|]. split; [|apply Y].
      intros j J1 J2. rewrite K by exact J1. unfold written. destruct ((first <=? j) && (j <? first + zlen data / bs)); [reflexivity|].
      apply S; assumption. }
  induction X as [t c next e J|t c next k t1 a Pc J Mo E Or|t q next met t1 q1 X IH|t v next|t e next]; intros G d O S.
  - subst g. eapply Cmd; eauto. apply mv_refused. exact J.
  - subst g. eapply Cmd; eauto. eapply mv_command; eauto.
  - cbn [elsewhere] in O. destruct O as [O1 O2]. destruct (IH G d O1 S) as (A & A2 & d1 & A3 & A4 & A5).
    split; [split; assumption|]. split; [exact A2|]. exists d1. split; [apply as_inside; exact A3|]. auto.
  - cbn [elsewhere] in O. split; [apply O|]. split; [reflexivity|]. exists d. split; [apply as_back|]. auto.
  - cbn [elsewhere] in O. split; [apply O|]. split; [reflexivity|]. exists d. split; [apply as_thrown|]. auto.
Qed.
Lemma body_progress : forall h padded t q, elsewhere bs capacity lba q -> ended q = None -> exists met t1 q1, moves (tgt h) padded t q met t1 q1.
Proof.
  intros h padded t q. induction q as [v|e|c next IH|q IHq next IH]; intros O E; try discriminate E.
  - cbn [elsewhere] in O. destruct O as [(first & n & R & _)|(first & data & R & _)].
    + destruct (some_read h padded c first n t R) as (k & t2 & a & Pc & J & Mo & X & Or & _). do 3 eexists. eapply mv_command; eauto.
    + destruct (some_write h padded c first data t R) as (k & t2 & a & Pc & J & Mo & X & Or & _). do 3 eexists. eapply mv_command; eauto.
  - destruct q as [v|e|c n|q' n].
    + do 3 eexists. apply mv_back.
    + do 3 eexists. apply mv_thrown.
    + destruct (IHq (proj1 O) eq_refl) as (met & t1 & q1 & X). do 3 eexists. apply mv_inside. exact X.
    + destruct (IHq (proj1 O) eq_refl) as (met & t1 & q1 & X). do 3 eexists. apply mv_inside. exact X.
Qed.

(** * Any number of hosts *)

Context (free : bytes) (mark : nat -> bytes) (tries : nat -> nat) (body : nat -> prog) (count : nat) (padded : nat -> bool).
Hypothesis Mk : marks bs free mark count.
Hypothesis El : forall h, elsewhere bs capacity lba (body h).
Context (t0 : T).

Definition waiting (h m : nat) : prog := locking lba bs free (mark h) m (body h).
Definition leaving (h : nat) : result pyval -> prog := unlocking lba bs free (mark h).
Notation stopped := (EAsiCheckCondition (pad 255 sense)).
Lemma waiting_unfold : forall h m, waiting h m = Do (CompareAndWrite lba (free ++ mark h) 1 bs []) (fun r =>
  match r with
  | Ok _ => Call (body h) (leaving h)
  | Err (EAsiCheckCondition sense) =>
    match m with
    | Datatypes.S m => if miscompared sense then waiting h m else Fail (EAsiCheckCondition sense)
    | O => Fail (EAsiCheckCondition sense)
    end
  | Err e => Fail e
  end).
Proof. intros h m. destruct m; reflexivity. Qed.
Notation other h := (fun t => locked_by_other (content t lba) mark count h).

(** How far a host has come: [met] are the states its commands met, [d] the blocks after the bodies of [done]. *)
Inductive stage (t : T) (done : list (nat * result pyval)) (d : Z -> bytes) (h : nat) (met : list T) : prog -> Prop :=
| st_wait : forall m, ~ In h (map fst done) -> content t lba <> mark h -> (m <= tries h)%nat -> (length met = tries h - m)%nat ->
    Forall (other h) met -> stage t done d h met (waiting h m)
| st_fail : ~ In h (map fst done) -> content t lba <> mark h -> length met = Datatypes.S (tries h) -> Forall (other h) met ->
    stage t done d h met (Fail stopped)
| st_work : forall q dw, ~ In h (map fst done) -> content t lba = mark h -> elsewhere bs capacity lba q ->
    alone bs capacity d (body h) dw q -> beside (content t) dw -> dw lba = free -> stage t done d h met (Call q (leaving h))
| st_leave : forall r q dw, ~ In h (map fst done) -> content t lba = mark h -> alone bs capacity d (body h) dw q -> ended q = Some r ->
    beside (content t) dw -> dw lba = free -> stage t done d h met (leaving h r)
| st_done : forall r, In (h, r) done -> content t lba <> mark h -> stage t done d h met (finish r).

Record guarded (t : T) (ps : nat -> prog) (done : list (nat * result pyval)) (d : Z -> bytes) (met : nat -> list T) : Prop := Guarded {
  gd_done : in_order bs capacity body (content t0) done d;
  gd_once : NoDup (map fst done);
  gd_hosts : forall h, In h (map fst done) -> (h < count)%nat;
  gd_lock : content t lba = free \/ exists h, (h < count)%nat /\ content t lba = mark h;
  gd_free : content t lba = free -> beside (content t) d;
  gd_block : d lba = free;
  gd_stage : forall h, (h < count)%nat -> stage t done d h (met h) (ps h);
  gd_idle : forall h, (count <= h)%nat -> ps h = Return PNone
}.

(** Stages of the other hosts. *)
Lemma stage_other : forall t done d h x met p t1 done1 d1, (h < count)%nat -> (x < count)%nat -> stage t done d h met p -> x <> h ->
  (content t lba = mark x \/ content t lba = free) \/ (forall k, 0 <= k < capacity -> content t1 k = content t k) /\ done1 = done /\ d1 = d ->
  content t1 lba = content t lba \/ content t1 lba = mark x \/ content t1 lba = free ->
  (done1 = done \/ exists r, done1 = done ++ [(x, r)]) -> stage t1 done1 d1 h met p.
Proof.
  intros t done d h x met p t1 done1 d1 Hh Hx H N A Bq C.
  assert (Ne : mark x <> mark h) by (intro Y; apply N; apply (mk_own _ _ _ _ Mk x h Hx Hh Y)).
  assert (Nf : free <> mark h) by (intro Y; apply (mk_taken _ _ _ _ Mk h Hh); congruence).
  assert (NI : ~ In h (map fst done) -> ~ In h (map fst done1)).
  { intros X Y. destruct C as [->|(r & ->)]; [contradiction|]. rewrite map_app in Y. apply in_app_or in Y. destruct Y as [Y|[Y|[]]]; contradiction. }
  assert (NO : content t lba <> mark h -> content t1 lba <> mark h) by (intros X Y; destruct Bq as [Bq|[Bq|Bq]]; congruence).
  destruct H as [m I1 I2 I3 I4 I5|I1 I2 I3 I4|q dw I1 I2 I3 I4 I5 I6|r q dw I1 I2 I3 I4 I5 I6|r I1 I2].
  - apply st_wait; auto.
  - apply st_fail; auto.
  - destruct A as [[A|A]|(A1 & -> & ->)]; [congruence|congruence|]. eapply st_work; eauto.
    + rewrite A1 by exact L. exact I2.
    + intros k K1 K2. rewrite A1 by exact K1. apply I5; assumption.
  - destruct A as [[A|A]|(A1 & -> & ->)]; [congruence|congruence|]. eapply st_leave; eauto.
    + rewrite A1 by exact L. exact I2.
    + intros k K1 K2. rewrite A1 by exact K1. apply I5; assumption.
  - apply st_done; auto. destruct C as [->|(r' & ->)]; [exact I1|apply in_or_app; auto].
Qed.

Lemma guarded_step : forall t ps done d met h m t1 p1, guarded t ps done d met -> moves (tgt h) (padded h) t (ps h) m t1 p1 ->
  exists done1 d1, guarded t1 (replaced h p1 ps) done1 d1 (fun x => if Nat.eqb x h then (met x ++ m) else met x).
Proof.
  intros t ps done d met h m t1 p1 [I1 I2 I3 Il I4 Ib I6 I7] M.
  destruct (Nat.lt_ge_cases h count) as [Lt|Ge]; [|rewrite (I7 h Ge) in M; inversion M].
  assert (Frame : forall done1 d1 q, (forall x, (x < count)%nat -> x <> h -> stage t1 done1 d1 x (met x) (ps x)) ->
    stage t1 done1 d1 h (met h ++ m) q ->
    (forall x, (x < count)%nat -> stage t1 done1 d1 x (if Nat.eqb x h then met x ++ m else met x) (replaced h q ps x)) /\
    (forall x, (count <= x)%nat -> replaced h q ps x = Return PNone)).
  { intros done1 d1 q A1 A2. split; intros x X; unfold replaced; destruct (Nat.eqb_spec x h) as [->|N]; auto; lia. }
  assert (Nf : mark h <> free) by (apply (mk_taken _ _ _ _ Mk); exact Lt).
  pose proof (I6 h Lt) as P. destruct P as [n J1 J2 J3 J4 J5|J1 J2 J3 J4|q dw J1 J2 J3 J4 J5 J6|r q dw J1 J2 J3 J4 J5 J6|r J1 J2].
  - (* taking the lock *)
    destruct (block_swap tgt content bs capacity sense D B Cap h (padded h) lba t free (mark h) L (mk_free _ _ _ _ Mk) (mk_size _ _ _ _ Mk h))
      as (Pr & k & t2 & a & J & Mo & E & O & R).
    rewrite waiting_unfold in M. destruct (moved tgt padded _ _ _ _ _ _ _ _ _ _ M J E) as (-> & -> & ->).
    destruct R as [(R1 & R2 & R3 & R4)|(R1 & R2 & R3)]; rewrite R2; cbv beta iota.
    + exists done, d. destruct (Frame done d (Call (body h) (leaving h))) as [A1 A2].
      * intros x X Nx. eapply stage_other with (x := h); [exact X|exact Lt|apply I6; exact X|congruence|auto|auto|auto].
      * eapply st_work; auto; [apply al_nil| |exact Ib]. intros j K1 K2. rewrite R4 by assumption. apply I4; assumption.
      * split; auto; [right; exists h; auto|intro X; congruence].
    + destruct D as [_ [_ MC] _].
      assert (F : other h t).
      { destruct Il as [Il|(x & Hx & Il)]; [contradiction|]. exists x. split; [exact Hx|]. split; [congruence|exact Il]. }
      exists done, d. destruct (Frame done d (match n with Datatypes.S m => if miscompared (pad 255 sense) then waiting h m else Fail stopped | O => Fail stopped end)) as [A1 A2].
      * intros x X Nx. eapply stage_other with (x := h); [exact X|exact Lt|apply I6; exact X|congruence|right; auto|left; apply R3; exact L|auto].
      * rewrite miscompared_pad, MC. destruct n as [|n].
        -- apply st_fail; auto; [rewrite R3 by exact L; exact J2|rewrite app_length; cbn [length]; lia|apply Forall_app; auto].
        -- apply st_wait; auto; [rewrite R3 by exact L; exact J2|lia|rewrite app_length; cbn [length]; lia|apply Forall_app; auto].
      * split; auto; [rewrite R3 by exact L; exact Il|]. rewrite R3 by exact L. intro X. contradiction.
  - inversion M.
  - (* the body *)
    inversion M; subst.
    + match goal with H : moves _ _ t q _ _ _ |- _ => destruct (body_moves _ _ _ _ _ _ _ H dw J3 J5) as (B1 & B2 & d1 & B3 & B4 & B5) end.
      exists done, d. match goal with |- guarded _ (replaced h ?p ps) _ _ _ => destruct (Frame done d p) as [A1 A2] end.
      * intros x X Nx. eapply stage_other with (x := h); [exact X|exact Lt|apply I6; exact X|congruence|auto|auto|auto].
      * eapply st_work; auto; [congruence|eapply alone_snoc; eauto|exact B4|congruence].
      * split; auto; [rewrite B2; exact Il|rewrite B2; intro X; congruence].
    + exists done, d. destruct (Frame done d (leaving h (Ok v))) as [A1 A2].
      * intros x X Nx. apply I6. exact X.
      * eapply st_leave; eauto.
      * split; auto.
    + exists done, d. destruct (Frame done d (leaving h (Err e))) as [A1 A2].
      * intros x X Nx. apply I6. exact X.
      * eapply st_leave; eauto.
      * split; auto.
  - (* giving it back *)
    destruct (block_swap tgt content bs capacity sense D B Cap h (padded h) lba t (mark h) free L (mk_size _ _ _ _ Mk h) (mk_free _ _ _ _ Mk))
      as (Pr & k & t2 & a & J & Mo & E & O & R).
    unfold leaving, unlocking in M. destruct (moved tgt padded _ _ _ _ _ _ _ _ _ _ M J E) as (-> & -> & ->).
    destruct R as [(R1 & R2 & R3 & R4)|(R1 & R2 & R3)]; [|contradiction]. rewrite R2.
    exists (done ++ [(h, r)]), dw. destruct (Frame (done ++ [(h, r)]) dw (finish r)) as [A1 A2].
    + intros x X Nx. eapply stage_other with (x := h); [exact X|exact Lt|apply I6; exact X|congruence|auto|auto|right; eauto].
    + apply st_done; [apply in_or_app; right; left; reflexivity|congruence].
    + split; auto.
      * eapply in_order_snoc; eauto.
      * rewrite map_app. cbn [map fst]. apply NoDup_rev in I2. rewrite <- (rev_involutive (map fst done ++ [h])). apply NoDup_rev.
        rewrite rev_app_distr. cbn [rev app]. constructor; [intro X; apply in_rev in X; contradiction|exact I2].
      * intros x X. rewrite map_app in X. apply in_app_or in X. destruct X as [X|[<-|[]]]; auto.
      * intros _ j K1 K2. rewrite R4 by assumption. apply J5; assumption.
  - destruct r; inversion M.
Qed.

Lemma guarded_run : forall t ps trace t' ps', together tgt padded t ps trace t' ps' -> forall done d met, guarded t ps done d met ->
  exists done' d' met', guarded t' ps' done' d' met' /\ forall h, met' h = met h ++ met_by h trace.
Proof.
  intros t ps trace t' ps' G. induction G as [t ps|t ps x m t1 p1 trace t' ps' M G IH]; intros done d met I.
  - exists done, d, met. split; [exact I|]. intro h. cbn. symmetry. apply app_nil_r.
  - destruct (guarded_step _ _ _ _ _ _ _ _ _ I M) as (d1 & s1 & I1). destruct (IH _ _ _ I1) as (d2 & s2 & m2 & I2 & U).
    exists d2, s2, m2. split; [exact I2|]. intro h. rewrite U, met_cons, (Nat.eqb_sym x h).
    destruct (Nat.eqb h x); [rewrite app_assoc; reflexivity|reflexivity].
Qed.

Definition everybody : nat -> prog := crowd count (fun h => locking lba bs free (mark h) (tries h) (body h)).
Lemma guarded_start : content t0 lba = free -> guarded t0 everybody [] (content t0) (fun _ => []).
Proof.
  intro F. split; auto.
  - constructor.
  - constructor.
  - intros h [].
  - intros _ k K1 K2. reflexivity.
  - intros h Lt. unfold everybody, crowd. destruct (Nat.ltb_spec h count); [|lia]. apply st_wait; auto; [|cbn; lia].
    intro X. apply (mk_taken _ _ _ _ Mk h Lt). congruence.
  - intros h Ge. unfold everybody, crowd. destruct (Nat.ltb_spec h count); [lia|reflexivity].
Qed.

Lemma ended_waiting : forall h m, ended (waiting h m) = None.
Proof. intros h m. rewrite waiting_unfold. reflexivity. Qed.

Theorem under_lock : content t0 lba = free -> forall trace t' ps', together tgt padded t0 everybody trace t' ps' ->
  exists done d, in_order bs capacity body (content t0) done d /\ NoDup (map fst done) /\
    (forall h r, In (h, r) done -> (h < count)%nat /\ ended (ps' h) = Some r) /\
    (forall h r, (h < count)%nat -> ended (ps' h) = Some r -> In (h, r) done \/
       r = Err stopped /\ ~ In h (map fst done) /\ length (met_by h trace) = Datatypes.S (tries h) /\ Forall (other h) (met_by h trace)) /\
    (content t' lba = free \/ exists h, (h < count)%nat /\ content t' lba = mark h /\ ended (ps' h) = None) /\
    (forall h, at_work (ps' h) -> (h < count)%nat /\ content t' lba = mark h) /\
    (content t' lba = free -> forall k, 0 <= k < capacity -> content t' k = d k).
Proof.
  intros F trace t' ps' G. destruct (guarded_run _ _ _ _ _ G _ _ _ (guarded_start F)) as (done & d & met & [I1 I2 I3 Il I4 Ib I6 I7] & U).
  cbn [app] in U. exists done, d. split; [exact I1|]. split; [exact I2|]. split; [|split; [|split; [|split]]].
  - intros h r X. assert (Lt : (h < count)%nat) by (apply I3; apply (in_map fst _ _ X)). split; [exact Lt|].
    pose proof (I6 h Lt) as P. remember (ps' h) as p eqn:E.
    assert (Y : In h (map fst done)) by (apply (in_map fst _ _ X)).
    destruct P as [m J1 J2 J3 J4 J5|J1 J2 J3 J4|q dw J1 J2 J3 J4 J5 J6|r' q dw J1 J2 J3 J4 J5 J6|r' J1 J2]; try contradiction.
    rewrite finish_ended. f_equal. clear - X J1 I2. induction done as [|[a b] done IH]; [contradiction|].
    cbn [map fst] in I2. inversion I2; subst. destruct X as [X|X], J1 as [J1|J1]; auto.
    + congruence.
    + injection X as -> ->. exfalso. apply H1. apply (in_map fst _ _ J1).
    + injection J1 as -> ->. exfalso. apply H1. apply (in_map fst _ _ X).
  - intros h r Lt E. pose proof (I6 h Lt) as P. rewrite U in P. destruct P as [m J1 J2 J3 J4 J5|J1 J2 J3 J4|q dw J1 J2 J3 J4 J5 J6|r' q dw J1 J2 J3 J4 J5 J6|r' J1 J2].
    + rewrite ended_waiting in E. discriminate E.
    + right. injection E as <-. auto.
    + discriminate E.
    + discriminate E.
    + rewrite finish_ended in E. injection E as <-. left. exact J1.
  - destruct Il as [Il|(h & Lt & Il)]; [left; exact Il|]. right. exists h. split; [exact Lt|]. split; [exact Il|].
    pose proof (I6 h Lt) as P. destruct P as [m J1 J2 J3 J4 J5|J1 J2 J3 J4|q dw J1 J2 J3 J4 J5 J6|r' q dw J1 J2 J3 J4 J5 J6|r' J1 J2]; try contradiction; reflexivity.
  - intros h A. destruct (Nat.lt_ge_cases h count) as [Lt|Ge]; [|rewrite (I7 h Ge) in A; destruct A].
    split; [exact Lt|]. pose proof (I6 h Lt) as P.
    destruct P as [m J1 J2 J3 J4 J5|J1 J2 J3 J4|q dw J1 J2 J3 J4 J5 J6|r' q dw J1 J2 J3 J4 J5 J6|r' J1 J2]; auto.
    + rewrite waiting_unfold in A. destruct A.
    + destruct A.
    + destruct r'; destruct A.
  - intros X k K. destruct (Z.eq_dec k lba) as [->|N]; [congruence|apply I4; assumption].
Qed.

(** Nobody is stuck. *)
Theorem lock_moves : content t0 lba = free -> forall trace t' ps' h, together tgt padded t0 everybody trace t' ps' ->
  ended (ps' h) = None -> exists met t1 p1, moves (tgt h) (padded h) t' (ps' h) met t1 p1.
Proof.
  intros F trace t' ps' h G E. destruct (guarded_run _ _ _ _ _ G _ _ _ (guarded_start F)) as (done & d & met & [I1 I2 I3 Il I4 Ib I6 I7] & U).
  destruct (Nat.lt_ge_cases h count) as [Lt|Ge]; [|rewrite (I7 h Ge) in E; discriminate E].
  pose proof (I6 h Lt) as P. destruct P as [m J1 J2 J3 J4 J5|J1 J2 J3 J4|q dw J1 J2 J3 J4 J5 J6|r' q dw J1 J2 J3 J4 J5 J6|r' J1 J2].
  - destruct (block_swap tgt content bs capacity sense D B Cap h (padded h) lba t' free (mark h) L (mk_free _ _ _ _ Mk) (mk_size _ _ _ _ Mk h))
      as (Pr & k & t2 & a & J & Mo & X & O & R).
    rewrite waiting_unfold. do 3 eexists. eapply mv_command; eauto.
  - discriminate E.
  - apply (body_progress h (padded h) t' (Call q (fun _ => Return PNone))) in E; [|cbn; auto].
    destruct E as (mt & t1 & q1 & X). inversion X; subst; do 3 eexists; [apply mv_inside; eassumption|apply mv_back|apply mv_thrown].
  - destruct (block_swap tgt content bs capacity sense D B Cap h (padded h) lba t' (mark h) free L (mk_size _ _ _ _ Mk h) (mk_free _ _ _ _ Mk))
      as (Pr & k & t2 & a & J & Mo & X & O & R).
    unfold leaving, unlocking. do 3 eexists. eapply mv_command; eauto.
  - rewrite finish_ended in E. discriminate E.
Qed.
End Lock.

(** * A lock that is not given back *)
Section Kept.
Context {T : Type} (tgt : nat -> target T) (content : T -> Z -> bytes) (bs capacity : Z) (sense : bytes).
Hypothesis D : compare_disk tgt content bs capacity sense.
Hypothesis B : 1 <= bs < 2 ^ 31.
Hypothesis Cap : capacity <= 2 ^ 64.

Theorem lock_kept : forall lba free mine, 0 <= lba < capacity -> zlen free = bs -> zlen mine = bs ->
  forall n h padded body t, content t lba <> free ->
  exists t', does (tgt h) padded t (locking lba bs free mine n body) t' (Err (EAsiCheckCondition (pad 255 sense))) /\
    forall k, 0 <= k < capacity -> content t' k = content t k.
Proof.
  intros lba free mine L Zf Zm n h padded body. induction n as [|n IH]; intros t N;
    destruct (block_swap tgt content bs capacity sense D B Cap h padded lba t free mine L Zf Zm) as (Pr & k & t2 & a & J & Mo & E & O & R);
    (destruct R as [(R1 & _)|(R1 & R2 & R3)]; [contradiction|]).
  - exists t2. split; [|exact R3]. cbn [locking]. eapply does_seen; eauto. cbv beta iota. constructor.
  - destruct (IH t2) as (t' & X & K); [rewrite R3 by exact L; exact N|]. exists t'. split.
    + cbn [locking]. eapply does_seen; eauto. cbv beta iota. rewrite miscompared_pad. destruct D as [_ [_ ->] _]. exact X.
    + intros j Hj. rewrite K by exact Hj. apply R3. exact Hj.
Qed.
Theorem foreign_key : forall lba free mine, 0 <= lba < capacity -> zlen free = bs -> zlen mine = bs ->
  forall h padded result t, content t lba <> mine ->
  exists t', does (tgt h) padded t (unlocking lba bs free mine result) t' (Err (EAsiCheckCondition (pad 255 sense))) /\
    forall k, 0 <= k < capacity -> content t' k = content t k.
Proof.
  intros lba free mine L Zf Zm h padded result t N.
  destruct (block_swap tgt content bs capacity sense D B Cap h padded lba t mine free L Zm Zf) as (Pr & k & t2 & a & J & Mo & E & O & R).
  destruct R as [(R1 & _)|(R1 & R2 & R3)]; [contradiction|].
  exists t2. split; [|exact R3]. unfold unlocking. eapply does_seen; eauto. cbv beta iota. constructor.
Qed.
End Kept.

(** * Changing a block *)

Lemma reads_same : forall bs capacity c first n first' n' , read_of c first n bs -> reads bs capacity c first' n' -> first' = first /\ n' = n.
Proof.
  intros bs capacity c first n first' n' R (R' & _). destruct c; cbn in R, R'; try contradiction;
    repeat match goal with H : _ /\ _ |- _ => destruct H end; split; congruence.
Qed.
Lemma reads_no_writes : forall bs capacity c first n first' data, read_of c first n bs -> writes bs capacity c first' data -> False.
Proof. intros bs capacity c first n first' data R (W & _). destruct c; cbn in R, W; contradiction. Qed.
Lemma writes_block : forall bs capacity lba new, 1 <= bs < 2 ^ 31 -> capacity <= 2 ^ 64 -> 0 <= lba < capacity -> zlen new = bs ->
  writes bs capacity (Write16 lba new bs []) lba new.
Proof.
  intros bs capacity lba new B Cap L Zn. split; [cbn; auto|]. split; [cbn; split; [constructor|lia]|]. split; [|split].
  - cbn [arguments_fit]. unfold settings_fit, setting. cbn [lookup]. rewrite Zn, Z.mod_same, Z.div_same by lia.
    repeat split; try lia. repeat constructor; cbn; lia.
  - rewrite Zn, Z.div_same by lia. lia.
  - lia.
Qed.
Lemma reads_block : forall bs capacity rd lba, 1 <= bs < 2 ^ 31 -> 0 <= lba < capacity -> read_of rd lba 1 bs -> proper rd -> arguments_fit rd ->
  reads bs capacity rd lba 1.
Proof. intros bs capacity rd lba B L R P F. do 3 (split; [assumption|]). lia. Qed.
Lemma written_block : forall bs lba new d k, 1 <= bs -> zlen new = bs -> written bs lba 1 new d k = if k =? lba then new else d k.
Proof.
  intros bs lba new d k B Zn. unfold written. destruct (Z.eqb_spec k lba) as [->|N].
  - replace ((lba <=? lba) && (lba <? lba + 1)) with true by (symmetry; rewrite andb_true_iff, Z.leb_le, Z.ltb_lt; lia).
    rewrite Z.sub_diag. cbn [Z.mul Z.add]. unfold slice. rewrite skipn_O, Nat.sub_0_r. rewrite <- Zn. unfold zlen. rewrite Nat2Z.id. apply firstn_all.
  - replace ((lba <=? k) && (k <? lba + 1)) with false; [reflexivity|]. symmetry. rewrite andb_false_iff, Z.leb_gt, Z.ltb_ge. lia.
Qed.

Section Change.
Context (bs capacity block : Z) (rd : command) (f : bytes -> bytes).
Hypothesis B : 1 <= bs < 2 ^ 31.
Hypothesis Cap : capacity <= 2 ^ 64.
Hypothesis L : 0 <= block < capacity.
Hypothesis Hr : read_of rd block 1 bs /\ proper rd /\ arguments_fit rd.
Hypothesis Hf : forall b, zlen b = bs -> zlen (f b) = bs.

Lemma change_elsewhere : forall lba, lba <> block -> elsewhere bs capacity lba (overwriting rd block bs f).
Proof.
  intros lba N. destruct Hr as (R & P & F). cbn [overwriting elsewhere]. left. exists block, 1. split; [apply reads_block; assumption|].
  split; [lia|]. intros data Zd. rewrite Z.mul_1_l in Zd. cbn [elsewhere]. right. exists block, (f data).
  split; [apply writes_block; auto|]. split; [|exact Logic.I]. rewrite Hf by exact Zd. rewrite Z.div_same by lia. lia.
Qed.
Lemma change_alone : forall d d1 p r, zlen (d block) = bs -> alone bs capacity d (overwriting rd block bs f) d1 p -> ended p = Some r ->
  r = Ok PNone /\ forall k, d1 k = if k =? block then f (d block) else d k.
Proof.
  intros d d1 p r Zd A E. destruct Hr as (R & P & F). revert Zd.
  inversion A as [|x1 x2 d2 p2 x3 x4 S1 A1]; subst; [discriminate E|].
  inversion S1; subst; [|exfalso; eapply reads_no_writes; eauto].
  match goal with H : reads _ _ _ _ _ |- _ => destruct (reads_same _ _ _ _ _ _ _ R H) as [-> ->] end.
  assert (X : blocks d2 block (Z.to_nat 1) = d2 block) by (change (Z.to_nat 1) with 1%nat; cbn [blocks]; apply app_nil_r).
  rewrite X in A1. cbv beta iota in A1.
  inversion A1 as [|y1 y2 d3 p3 y3 y4 S2 A2]; subst; [discriminate E|].
  inversion S2; subst.
  { match goal with H : reads _ _ (Write16 _ _ _ _) _ _ |- _ => destruct H as ([] & _) end. }
  match goal with H : writes _ _ (Write16 _ _ _ _) _ _ |- _ => destruct H as ((<- & <- & _) & _) end.
  inversion A2 as [|z1 z2 d4 p4 z3 z4 S3 A3]; subst; [|inversion S3].
  intro Zd. cbn in E. injection E as <-. split; [reflexivity|]. intro k. rewrite Hf by exact Zd. rewrite Z.div_same by lia.
  apply written_block; [lia|apply Hf; exact Zd].
Qed.
End Change.

Theorem locked_changes : forall T (tgt : nat -> target T) content bs capacity sense, compare_disk tgt content bs capacity sense ->
  1 <= bs < 2 ^ 31 -> capacity <= 2 ^ 64 -> forall lba block f rd free mark tries count padded,
  0 <= lba < capacity -> 0 <= block < capacity -> lba <> block -> marks bs free mark count ->
  (forall h b, zlen b = bs -> zlen (f h b) = bs) -> (forall h, read_of (rd h) block 1 bs /\ proper (rd h) /\ arguments_fit (rd h)) ->
  forall t trace t' ps', content t lba = free ->
  together tgt padded t (crowd count (fun h => locking lba bs free (mark h) (tries h) (overwriting (rd h) block bs (f h)))) trace t' ps' ->
  exists order, NoDup order /\ (forall h, In h order <-> (h < count)%nat /\ ps' h = Return PNone) /\
    (forall h e, (h < count)%nat -> ps' h = Fail e -> e = EAsiCheckCondition (pad 255 sense) /\
       length (met_by h trace) = Datatypes.S (tries h) /\ Forall (fun t => locked_by_other (content t lba) mark count h) (met_by h trace)) /\
    (content t' lba = free -> content t' block = changed f order (content t block) /\
       forall k, 0 <= k < capacity -> k <> block -> content t' k = content t k).
Proof.
  intros T tgt content bs capacity sense D B Cap lba block f rd free mark tries count padded L Lb Nb Mk Hf Hr t trace t' ps' F G.
  destruct (under_lock tgt content bs capacity sense D B Cap lba L free mark tries _ count padded Mk
    (fun h => change_elsewhere bs capacity block (rd h) (f h) B Cap Lb (Hr h) (Hf h) lba Nb) t F trace t' ps' G)
    as (done & d & O & N & I1 & I2 & I3 & I4 & I5).
  assert (Z0 : zlen (content t block) = bs) by (destruct D as [BD _ _]; destruct (BD 0%nat) as [X _ _]; apply X; exact Lb).
  assert (W : (forall h r, In (h, r) done -> r = Ok PNone) /\ d block = changed f (map fst done) (content t block) /\
    forall k, k <> block -> d k = content t k).
  { clear - O B Cap Lb Hf Hr Z0. induction O as [d|d h d1 p r rest d' A E O IH]; [split; [intros h r []|auto]|].
    destruct (change_alone bs capacity block (rd h) (f h) B (Hr h) (Hf h) _ _ _ _ Z0 A E) as (-> & K).
    assert (Kb : d1 block = f h (d block)) by (rewrite K, Z.eqb_refl; reflexivity).
    destruct IH as (W1 & W2 & W3); [rewrite Kb; apply Hf; exact Z0|]. split; [|split].
    - intros x y [X|X]; [injection X as <- <-; reflexivity|eauto].
    - rewrite W2, Kb. reflexivity.
    - intros k Nk. rewrite W3 by exact Nk. rewrite K. apply Z.eqb_neq in Nk. rewrite Nk. reflexivity. }
  destruct W as (W1 & W2 & W3). exists (map fst done). split; [exact N|]. split; [|split].
  - intro h. split.
    + intro X. apply in_map_iff in X. destruct X as [[x r] [E X]]. cbn in E. subst x. pose proof (W1 _ _ X). subst r.
      destruct (I1 _ _ X) as [Y1 Y2]. split; [exact Y1|]. destruct (ps' h); cbn in Y2; try discriminate Y2. congruence.
    + intros [Lt E]. destruct (I2 h (Ok PNone) Lt) as [X|[X _]]; [rewrite E; reflexivity|apply (in_map fst _ _ X)|discriminate X].
  - intros h e Lt E. destruct (I2 h (Err e) Lt) as [X|(X & _ & X1 & X2)]; [rewrite E; reflexivity|discriminate (W1 _ _ X)|].
    injection X as ->. auto.
  - intro X. split; [rewrite I5 by assumption; exact W2|]. intros k K Nk. rewrite I5 by assumption. apply W3. exact Nk.
Qed.

(** * The lock given back by hosts that do not have it *)
Section Careless.
Context {T : Type} (tgt : nat -> target T) (padded : nat -> bool).

Lemma go_command : forall h t c next k t1 a x ps (Q : T -> (nat -> prog) -> Prop), ps h = Do c next -> proper c -> issued c = Ok k -> moderate k ->
  tgt h t (command_of k) (data_out k) = (t1, a) -> ordinary a -> seen (padded h) c k a = x ->
  (exists trace t' ps', together tgt padded t1 (replaced h (next x) ps) trace t' ps' /\ Q t' ps') ->
  exists trace t' ps', together tgt padded t ps trace t' ps' /\ Q t' ps'.
Proof.
  intros h t c next k t1 a x ps Q E P J M X O S (trace & t' & ps' & G & Y). exists (map (pair h) [t] ++ trace), t', ps'. split; [|exact Y].
  eapply tg_step; [|exact G]. rewrite E, <- S. eapply mv_command; eauto.
Qed.
Lemma go_inside : forall h t c next out k t1 a x ps (Q : T -> (nat -> prog) -> Prop), ps h = Call (Do c next) out -> proper c -> issued c = Ok k -> moderate k ->
  tgt h t (command_of k) (data_out k) = (t1, a) -> ordinary a -> seen (padded h) c k a = x ->
  (exists trace t' ps', together tgt padded t1 (replaced h (Call (next x) out) ps) trace t' ps' /\ Q t' ps') ->
  exists trace t' ps', together tgt padded t ps trace t' ps' /\ Q t' ps'.
Proof.
  intros h t c next out k t1 a x ps Q E P J M X O S (trace & t' & ps' & G & Y). exists (map (pair h) [t] ++ trace), t', ps'. split; [|exact Y].
  eapply tg_step; [|exact G]. rewrite E, <- S. apply mv_inside. eapply mv_command; eauto.
Qed.
Lemma go_back : forall h t q out r ps (Q : T -> (nat -> prog) -> Prop), ps h = Call q out -> ended q = Some r ->
  (exists trace t' ps', together tgt padded t (replaced h (out r) ps) trace t' ps' /\ Q t' ps') ->
  exists trace t' ps', together tgt padded t ps trace t' ps' /\ Q t' ps'.
Proof.
  intros h t q out r ps Q E X (trace & t' & ps' & G & Y). exists (map (pair h) [] ++ trace), t', ps'. split; [|exact Y].
  eapply tg_step; [|exact G]. rewrite E. destruct q; try discriminate X; injection X as <-; constructor.
Qed.
End Careless.

Theorem careless_hosts : forall T (tgt : nat -> target T) content bs capacity sense, compare_disk tgt content bs capacity sense ->
  1 <= bs < 2 ^ 31 -> capacity <= 2 ^ 64 -> forall lba block f rd free mark padded,
  0 <= lba < capacity -> 0 <= block < capacity -> lba <> block -> marks bs free mark 3 ->
  (forall h b, zlen b = bs -> zlen (f h b) = bs) -> (forall h, read_of (rd h) block 1 bs /\ proper (rd h) /\ arguments_fit (rd h)) ->
  forall t, content t lba = free ->
  exists trace t' ps', together tgt padded t (crowd 3 (fun h => careless lba bs free (mark h) (overwriting (rd h) block bs (f h)))) trace t' ps' /\
    ps' 0%nat = Return PNone /\ ps' 1%nat = Fail (EAsiCheckCondition (pad 255 sense)) /\ ps' 2%nat = Return PNone /\
    content t' lba = free /\ content t' block = f 2%nat (content t block).
Proof.
  intros T tgt content bs capacity sense D B Cap lba block f rd free mark padded L Lb N Mk Hf Hr t F.
  assert (Zc : zlen (content t block) = bs) by (destruct D as [BD _ _]; destruct (BD 0%nat) as [X _ _]; apply X; exact Lb).
  pose proof (mk_free _ _ _ _ Mk) as Zf. pose proof (mk_size _ _ _ _ Mk) as Zm.
  assert (BD : forall h, block_device (tgt h) content bs capacity) by (destruct D; assumption).
  pose proof (fun h => block_swap tgt content bs capacity sense D B Cap h (padded h) lba) as Take.
  pose proof (fun h s => block_read tgt content bs capacity sense D B h (padded h) (rd h) block s
    (proj1 (Hr h)) (proj1 (proj2 (Hr h))) (proj2 (proj2 (Hr h))) Lb) as Look.
  pose proof (fun h => plain_write (tgt h) content bs capacity (BD h) B Cap (padded h)) as Put.
  assert (Nf : mark 0%nat <> free) by (apply (mk_taken _ _ _ _ Mk); lia).
  (* host 0 takes the lock *)
  destruct (Take 0%nat t free (mark 0%nat) L Zf (Zm _)) as (P1 & k1 & t1 & a1 & J1 & M1 & E1 & O1 & [(_ & S1 & V1 & W1)|(X & _)]); [|contradiction].
  eapply (go_inside tgt padded 0%nat t) with (x := Ok PNone); [reflexivity|exact P1|exact J1|exact M1|exact E1|exact O1|exact S1|]. cbv beta iota.
  (* host 1 does not get it, and frees it *)
  destruct (Take 1%nat t1 free (mark 1%nat) L Zf (Zm _)) as (P2 & k2 & t2 & a2 & J2 & M2 & E2 & O2 & [(X & _)|(_ & S2 & V2)]); [congruence|].
  eapply (go_inside tgt padded 1%nat t1) with (x := Err _); [reflexivity|exact P2|exact J2|exact M2|exact E2|exact O2|exact S2|]. cbv beta iota.
  eapply (go_back tgt padded 1%nat t2); [reflexivity|reflexivity|].
  destruct (Put 1%nat lba t2 free L Zf) as (P3 & k3 & t3 & a3 & J3 & M3 & E3 & O3 & S3 & V3 & W3).
  eapply (go_command tgt padded 1%nat t2) with (x := Ok PNone); [reflexivity|exact P3|exact J3|exact M3|exact E3|exact O3|exact S3|]. cbv beta iota.
  (* host 2 takes it *)
  destruct (Take 2%nat t3 free (mark 2%nat) L Zf (Zm _)) as (P4 & k4 & t4 & a4 & J4 & M4 & E4 & O4 & [(_ & S4 & V4 & W4)|(X & _)]); [|contradiction].
  eapply (go_inside tgt padded 2%nat t3) with (x := Ok PNone); [reflexivity|exact P4|exact J4|exact M4|exact E4|exact O4|exact S4|]. cbv beta iota.
  assert (C4 : content t4 block = content t block).
  { rewrite W4 by auto. rewrite W3 by auto. rewrite V2 by auto. apply W1; auto. }
  (* both read *)
  destruct (Look 0%nat t4) as (k5 & t5 & a5 & J5 & M5 & E5 & O5 & S5 & V5). rewrite C4 in S5.
  eapply (go_inside tgt padded 0%nat t4) with (x := Ok (PBytes (content t block))); [reflexivity|apply Hr|exact J5|exact M5|exact E5|exact O5|exact S5|]. cbv beta iota.
  destruct (Look 2%nat t5) as (k6 & t6 & a6 & J6 & M6 & E6 & O6 & S6 & V6). rewrite V5, C4 in S6 by exact Lb.
  eapply (go_inside tgt padded 2%nat t5) with (x := Ok (PBytes (content t block))); [reflexivity|apply Hr|exact J6|exact M6|exact E6|exact O6|exact S6|]. cbv beta iota.
  (* both write *)
  destruct (Put 0%nat block t6 (f 0%nat (content t block)) Lb (Hf _ _ Zc)) as (P7 & k7 & t7 & a7 & J7 & M7 & E7 & O7 & S7 & V7 & W7).
  eapply (go_inside tgt padded 0%nat t6) with (x := Ok PNone); [reflexivity|exact P7|exact J7|exact M7|exact E7|exact O7|exact S7|]. cbv beta iota.
  destruct (Put 2%nat block t7 (f 2%nat (content t block)) Lb (Hf _ _ Zc)) as (P8 & k8 & t8 & a8 & J8 & M8 & E8 & O8 & S8 & V8 & W8).
  eapply (go_inside tgt padded 2%nat t7) with (x := Ok PNone); [reflexivity|exact P8|exact J8|exact M8|exact E8|exact O8|exact S8|]. cbv beta iota.
  (* both free the lock *)
  eapply (go_back tgt padded 0%nat t8); [reflexivity|reflexivity|].
  destruct (Put 0%nat lba t8 free L Zf) as (P9 & k9 & t9 & a9 & J9 & M9 & E9 & O9 & S9 & V9 & W9).
  eapply (go_command tgt padded 0%nat t8) with (x := Ok PNone); [reflexivity|exact P9|exact J9|exact M9|exact E9|exact O9|exact S9|]. cbv beta iota.
  eapply (go_back tgt padded 2%nat t9); [reflexivity|reflexivity|].
  destruct (Put 2%nat lba t9 free L Zf) as (P10 & k10 & t10 & a10 & J10 & M10 & E10 & O10 & S10 & V10 & W10).
  eapply (go_command tgt padded 2%nat t9) with (x := Ok PNone); [reflexivity|exact P10|exact J10|exact M10|exact E10|exact O10|exact S10|]. cbv beta iota.
  exists [], t10. eexists. split; [apply tg_nil|]. do 3 (split; [reflexivity|]). split; [exact V10|].
  rewrite W10 by auto. rewrite W9 by auto. exact V8.
Qed.
