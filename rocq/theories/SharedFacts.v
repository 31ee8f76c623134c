(** Lemmas on several hosts that run programs against one device at the same time. *)
From Coq Require Import String ZArith List Bool Lia PeanoNat Permutation.
From Verif Require Import Base BaseFacts Gen SpecGen GenFacts Executer SpecCall ExecFacts
  OsCommon OsLinux OsSolaris OsAix OsWin32 SpecSg SpecDrivers SpecSession LinuxFacts SessionFacts
  Instruct Command CdbPrimary CdbBlock SpecDevice SpecCdb CdbPrimaryFacts CdbBlockFacts CdbResponseFacts CdbAllFacts CdbPropFacts SpecExecute ExecuteFacts
  Sense SpecSense SenseFacts SpecPortable PortableFacts DiskFacts SpecReserve ReserveFacts SpecAdaptive AdaptiveFacts SpecShared.
Import ListNotations.
Local Open Scope string_scope.
Local Open Scope list_scope.
Local Open Scope Z_scope.

(** * Every host runs its program *)

Lemma met_cons : forall T h x (met : list T) trace,
  met_by h (map (pair x) met ++ trace) = (if Nat.eqb x h then met else []) ++ met_by h trace.
Proof.
  intros T h x met trace. unfold met_by. rewrite filter_app, map_app. f_equal.
  induction met as [|m met IH]; cbn; [destruct (Nat.eqb x h); reflexivity|].
  destruct (Nat.eqb x h) eqn:E; cbn; rewrite IH; reflexivity.
Qed.

Lemma moves_does : forall T (tgt : target T) padded t p met t1 p1, moves tgt padded t p met t1 p1 ->
  forall y rest st r, does (disturbed tgt) padded (match met with [] => y | _ => t1 end, rest) p1 st r ->
  does (disturbed tgt) padded (y, met ++ rest) p st r.
Proof.
  intros T tgt padded t p met t1 p1 M.
  induction M as [t c next e J|t c next k t1 a P J Mo E O|t q next met t1 q1 M IH|t v next|t e next]; intros y rest st r D.
  - eapply does_refused; eauto.
  - cbn [app]. eapply does_command; eauto. cbn [disturbed]. rewrite E. reflexivity.
  - inversion D; subst. eapply does_call; [apply IH; eauto|eauto].
  - eapply does_call; [apply does_return|exact D].
  - eapply does_call; [apply does_fail|exact D].
Qed.

Lemma together_does : forall T tgt padded (t : T) ps trace t' ps' h r, together tgt padded t ps trace t' ps' -> ended (ps' h) = Some r ->
  forall y, exists last, does (disturbed (tgt h)) (padded h) (y, met_by h trace) (ps h) (last, []) r.
Proof.
  intros T tgt padded t ps trace t' ps' h r G. induction G as [t ps|t ps x met t1 p1 trace t' ps' M G IH]; intros E y.
  - exists y. cbn. destruct (ps h); cbn in E; try discriminate E; injection E as <-; constructor.
  - rewrite met_cons. unfold replaced in IH. destruct (Nat.eqb_spec x h) as [->|N].
    + rewrite Nat.eqb_refl in IH. destruct (IH E (match met with [] => y | _ => t1 end)) as [last D].
      exists last. eapply moves_does; eauto.
    + assert (X : Nat.eqb h x = false) by (apply Nat.eqb_neq; congruence). rewrite X in IH. apply IH. exact E.
Qed.

Lemma hosts_together : forall T tgt padded (t : T) ps trace t' ps' h (sys : system (T * list T)) r y s,
  together tgt padded t ps trace t' ps' -> ended (ps' h) = Some r -> one_of_four sys -> pads sys = padded h ->
  idle sys s (y, met_by h trace) ->
  exists s' last, sync_wait_ends (coroutine (os_of sys (disturbed (tgt h))) (ps h)) s s' (shown r) /\ idle sys s' (last, []).
Proof.
  intros T tgt padded t ps trace t' ps' h sys r y s G E F P I. destruct (together_does _ _ _ _ _ _ _ _ h r G E y) as [last D].
  rewrite <- P in D. destruct (adaptive _ sys _ _ _ _ _ s F D I) as (s' & X & Y). eauto.
Qed.

(** * The commands *)

Lemma same_bytes_true : forall a b, same_bytes a b = true <-> a = b.
Proof. intros a b. unfold same_bytes. destruct (list_eq_dec Z.eq_dec a b); intuition congruence. Qed.

Lemma byte_pad : forall i n l, (i < n)%nat -> byte_at i (pad n l) = byte_at i l.
Proof.
  intros i n l L. unfold byte_at, pad. destruct (Nat.lt_ge_cases i (length l)) as [X|X].
  - rewrite app_nth1 by (rewrite firstn_length; lia). rewrite <- (firstn_skipn n l) at 2. rewrite app_nth1; [reflexivity|].
    rewrite firstn_length. lia.
  - rewrite (nth_overflow l) by lia. rewrite app_nth2 by (rewrite firstn_length; lia). unfold zeros.
    apply nth_repeat.
Qed.
Lemma miscompared_pad : forall s, miscompared (pad 255 s) = miscompared s.
Proof. intro s. unfold miscompared, bf. rewrite !byte_pad by lia. reflexivity. Qed.

Lemma compare_issue : forall lba buffer n bs, 1 <= bs -> 0 <= lba < 2 ^ 64 -> 0 <= n < 2 ^ 8 -> zlen buffer mod bs = 0 ->
  proper (CompareAndWrite lba buffer n bs []) /\
  exists cdb f, issued (CompareAndWrite lba buffer n bs []) = Ok (WriteCmd cdb buffer) /\
    interpret cdb = Some (OpCompareAndWrite lba n f) /\ protect f = 0.
Proof.
  intros lba buffer n bs B L N M.
  assert (P : proper (CompareAndWrite lba buffer n bs [])) by (cbn; split; [constructor|lia]).
  split; [exact P|]. destruct (issued_cases _ P) as [I _].
  destruct I as (o & k & C & Q & J).
  { cbn [arguments_fit]. unfold settings_fit, rw10_widths, setting. cbn [lookup]. repeat split; try lia. repeat constructor; cbn; lia. }
  assert (J' : (do o <- compare_and_write lba buffer n bs; request (assigned [] o)) = Ok k).
  { rewrite <- J. unfold issued. cbn [constructed]. rewrite with_settings_request. reflexivity. }
  destruct (tells_ok _ _ _ _ _ (compare_and_write_spec lba buffer n bs [] (Forall_nil _) B) J') as (_ & cdb & -> & X).
  exists cdb. eexists. split; [exact J|]. split; [exact X|reflexivity].
Qed.

Lemma write_seen : forall padded c cdb d x, (forall o, constructed c = Ok o -> o_finish o = raw_result) -> issued c = Ok (WriteCmd cdb d) ->
  seen padded c (WriteCmd cdb d) (good x) = Ok PNone.
Proof.
  intros padded c cdb d x F J. destruct (issued_object _ _ J) as (o & C & _). unfold seen. cbn [good a_status]. cbn [Z.eqb].
  rewrite C. unfold yields. cbn [bind]. rewrite (F o C). destruct padded; reflexivity.
Qed.

Lemma compare_finish : forall lba buffer n bs o, constructed (CompareAndWrite lba buffer n bs []) = Ok o -> o_finish o = raw_result.
Proof.
  intros lba buffer n bs o C. cbn [constructed] in C. unfold with_settings in C.
  destruct (compare_and_write lba buffer n bs) as [x|e] eqn:E; cbn [bind] in C; [|discriminate C].
  assert (X : o_finish x = raw_result).
  { unfold compare_and_write in E. repeat (match type of E with (match ?y with _ => _ end) = _ => destruct y | (do _ <- ?y; _) = _ => destruct y end; cbn [bind] in E; try discriminate E).
    all: injection E as <-; reflexivity. }
  injection C as <-. exact X.
Qed.

Section Disk.
Context {T : Type} (tgt : nat -> target T) (content : T -> Z -> bytes) (bs capacity : Z) (sense : bytes).
Hypothesis D : compare_disk tgt content bs capacity sense.
Hypothesis B : 1 <= bs < 2 ^ 31.
Hypothesis Cap : capacity <= 2 ^ 64.

Lemma ordinary_miscompare : ordinary (rejection sense).
Proof. destruct D as [_ [S _] _]. split; [reflexivity|]. split; [exact S|]. right. left. split; reflexivity. Qed.

(** A READ of one block. *)
Lemma block_read : forall h padded rd lba t, read_of rd lba 1 bs -> proper rd -> arguments_fit rd -> 0 <= lba < capacity ->
  exists k t1 a, issued rd = Ok k /\ moderate k /\ tgt h t (command_of k) (data_out k) = (t1, a) /\ ordinary a /\
    seen padded rd k a = Ok (PBytes (content t lba)) /\ forall j, 0 <= j < capacity -> content t1 j = content t j.
Proof.
  intros h padded rd lba t R P F L. destruct B as [B1 B2].
  destruct (read_issue rd lba 1 bs B1 R P F) as (o & cdb & f & C & Q & I & Pr & L0 & _).
  destruct D as [BD _ _]. destruct (BD h) as [Z1 RD _].
  destruct (RD t cdb [] lba 1 f I Pr L0 ltac:(lia) ltac:(lia)) as (t1 & E & K).
  rewrite Z.mul_1_l in Q. exists (ReadCmd cdb bs), t1, (good (blocks (content t) lba 1)).
  assert (J : issued rd = Ok (ReadCmd cdb bs)) by (unfold issued; rewrite C; exact Q).
  split; [exact J|]. split; [cbn; lia|]. split; [exact E|]. split; [apply ordinary_good|]. split; [|exact K].
  assert (X : blocks (content t) lba 1 = content t lba) by (cbn [blocks]; apply app_nil_r).
  rewrite X. pose proof (Z1 t lba L) as ZL.
  unfold seen. cbn [good a_status a_data]. cbn [Z.eqb]. rewrite C.
  assert (Y : (if padded then data_wanted (ReadCmd cdb bs) (content t lba) else win_data (ReadCmd cdb bs) (content t lba)) = Some (content t lba)).
  { assert (W : firstn (Z.to_nat bs) (content t lba) = content t lba) by (rewrite <- ZL; unfold zlen; rewrite Nat2Z.id; apply firstn_all).
    destruct padded; unfold data_wanted, win_data.
    - replace (0 <? bs) with true by (symmetry; apply Z.ltb_lt; lia). f_equal.
      rewrite <- ZL. unfold zlen. rewrite Nat2Z.id. apply pad_exact.
    - replace ((0 <? bs) && (0 <? zlen (content t lba))) with true by (symmetry; rewrite ZL; apply andb_true_iff; rewrite Z.ltb_lt; lia).
      f_equal. exact W. }
  rewrite Y. unfold yields. cbn [bind]. rewrite (read_finish _ _ _ _ _ R C). reflexivity.
Qed.

(** COMPARE AND WRITE of some blocks. *)
Lemma blocks_swap : forall h padded lba n t old new, 0 <= lba -> 0 <= n < 2 ^ 8 -> lba + n <= capacity -> lba < 2 ^ 64 -> 2 * n * bs < 2 ^ 32 ->
  zlen old = n * bs -> zlen new = n * bs ->
  proper (CompareAndWrite lba (old ++ new) n bs []) /\
  exists k t1 a, issued (CompareAndWrite lba (old ++ new) n bs []) = Ok k /\ moderate k /\
    tgt h t (command_of k) (data_out k) = (t1, a) /\ ordinary a /\
    ((blocks (content t) lba (Z.to_nat n) = old /\ seen padded (CompareAndWrite lba (old ++ new) n bs []) k a = Ok PNone /\
      forall j, 0 <= j < capacity -> content t1 j = written bs lba n new (content t) j) \/
     (blocks (content t) lba (Z.to_nat n) <> old /\
      seen padded (CompareAndWrite lba (old ++ new) n bs []) k a = Err (EAsiCheckCondition (pad 255 sense)) /\
      forall j, 0 <= j < capacity -> content t1 j = content t j)).
Proof.
  intros h padded lba n t old new L N C L64 M Zo Zn. destruct B as [B1 B2].
  assert (ZB : zlen (old ++ new) = 2 * n * bs) by (unfold zlen in *; rewrite app_length, Nat2Z.inj_add; lia).
  destruct (compare_issue lba (old ++ new) n bs B1 ltac:(lia) N) as (P & cdb & f & J & I & Pr).
  { rewrite ZB. apply Z.mod_mul. lia. }
  split; [exact P|]. destruct D as [_ _ CW].
  destruct (CW h t cdb (old ++ new) lba n f I Pr L ltac:(lia) C ZB) as (t1 & E & K).
  assert (F : firstn (Z.to_nat (n * bs)) (old ++ new) = old).
  { rewrite <- Zo. unfold zlen. rewrite Nat2Z.id, firstn_app, Nat.sub_diag, firstn_all, firstn_O. apply app_nil_r. }
  assert (S : skipn (Z.to_nat (n * bs)) (old ++ new) = new).
  { rewrite <- Zo. unfold zlen. rewrite Nat2Z.id, skipn_app, Nat.sub_diag, skipn_all. reflexivity. }
  rewrite F in E, K. rewrite S in K.
  exists (WriteCmd cdb (old ++ new)), t1. eexists. split; [exact J|]. split; [unfold moderate; lia|]. split; [exact E|].
  destruct (same_bytes (blocks (content t) lba (Z.to_nat n)) old) eqn:Eq.
  - split; [apply ordinary_good|]. left. split; [apply same_bytes_true; exact Eq|]. split; [|exact K].
    apply write_seen; [apply compare_finish|exact J].
  - split; [apply ordinary_miscompare|]. right. split; [|split; [reflexivity|exact K]].
    intro X. apply same_bytes_true in X. congruence.
Qed.

Lemma block_swap : forall h padded lba t old new, 0 <= lba < capacity -> zlen old = bs -> zlen new = bs ->
  proper (CompareAndWrite lba (old ++ new) 1 bs []) /\
  exists k t1 a, issued (CompareAndWrite lba (old ++ new) 1 bs []) = Ok k /\ moderate k /\
    tgt h t (command_of k) (data_out k) = (t1, a) /\ ordinary a /\
    ((content t lba = old /\ seen padded (CompareAndWrite lba (old ++ new) 1 bs []) k a = Ok PNone /\
      content t1 lba = new /\ forall j, 0 <= j < capacity -> j <> lba -> content t1 j = content t j) \/
     (content t lba <> old /\
      seen padded (CompareAndWrite lba (old ++ new) 1 bs []) k a = Err (EAsiCheckCondition (pad 255 sense)) /\
      forall j, 0 <= j < capacity -> content t1 j = content t j)).
Proof.
  intros h padded lba t old new L Zo Zn. destruct B as [B1 B2].
  destruct (blocks_swap h padded lba 1 t old new ltac:(lia) ltac:(lia) ltac:(lia) ltac:(lia) ltac:(lia) ltac:(lia) ltac:(lia))
    as (P & k & t1 & a & J & M & E & O & R). split; [exact P|].
  assert (X : blocks (content t) lba (Z.to_nat 1) = content t lba) by (change (Z.to_nat 1) with 1%nat; cbn [blocks]; apply app_nil_r).
  exists k, t1, a. repeat (split; [assumption|]). rewrite X in R. destruct R as [(R1 & R2 & R3)|R]; [left|right; exact R].
  split; [exact R1|]. split; [exact R2|]. split.
  - rewrite R3 by lia. unfold written. replace ((lba <=? lba) && (lba <? lba + 1)) with true
      by (symmetry; rewrite andb_true_iff, Z.leb_le, Z.ltb_lt; lia).
    rewrite Z.sub_diag. cbn [Z.mul Z.add]. unfold slice. rewrite skipn_O, Nat.sub_0_r.
    rewrite <- Zn. unfold zlen. rewrite Nat2Z.id. apply firstn_all.
  - intros j J1 J2. rewrite R3 by lia. unfold written. replace ((lba <=? j) && (j <? lba + 1)) with false; [reflexivity|].
    symmetry. rewrite andb_false_iff, Z.leb_gt, Z.ltb_ge. lia.
Qed.

(** * Any number of hosts *)

Context (lba : Z) (f : nat -> bytes -> bytes) (rd : nat -> command) (tries : nat -> nat) (count : nat) (padded : nat -> bool).
Hypothesis L : 0 <= lba < capacity.
Hypothesis Hf : forall h b, zlen b = bs -> zlen (f h b) = bs.
Hypothesis Hr : forall h, read_of (rd h) lba 1 bs /\ proper (rd h) /\ arguments_fit (rd h).

Definition trying (h m : nat) : prog := updating (rd h) lba bs (f h) m.
Definition swapping (h m : nat) (old : bytes) : prog :=
  Do (CompareAndWrite lba (old ++ f h old) 1 bs []) (fun r =>
    match r with
    | Ok v => Return v
    | Err (EAsiCheckCondition sense) =>
      match m with
      | Datatypes.S m => if miscompared sense then trying h m else Fail (EAsiCheckCondition sense)
      | O => Fail (EAsiCheckCondition sense)
      end
    | Err e => Fail e
    end).
Lemma trying_unfold : forall h m, trying h m = Do (rd h) (fun r =>
  match r with Ok (PBytes old) => swapping h m old | Ok _ => Fail EType | Err e => Fail e end).
Proof. intros h m. destruct m; reflexivity. Qed.

Context (t0 : T).
Let value (order : list nat) : bytes := changed f order (content t0 lba).

(** How far a host has come, when the hosts of [order] have succeeded: [used] commands were sent. *)
Inductive phase (order : list nat) (h used : nat) : prog -> Prop :=
| ph_read : forall m, ~ In h order -> (m <= tries h)%nat -> (tries h - m <= length order)%nat -> (used = 2 * (tries h - m))%nat ->
    phase order h used (trying h m)
| ph_swap : forall m p, ~ In h order -> (m <= tries h)%nat -> (tries h - m <= p)%nat -> (p <= length order)%nat ->
    (used = 2 * (tries h - m) + 1)%nat -> phase order h used (swapping h m (value (firstn p order)))
| ph_done : In h order -> (used <= 2 * Datatypes.S (tries h))%nat -> phase order h used (Return PNone)
| ph_fail : ~ In h order -> (tries h < length order)%nat -> (used <= 2 * Datatypes.S (tries h))%nat ->
    phase order h used (Fail (EAsiCheckCondition (pad 255 sense))).

Record invariant (t : T) (ps : nat -> prog) (order : list nat) (used : nat -> nat) : Prop := Invariant {
  in_block : content t lba = value order;
  in_others : forall k, 0 <= k < capacity -> k <> lba -> content t k = content t0 k;
  in_once : NoDup order;
  in_hosts : forall h, In h order -> (h < count)%nat;
  in_phase : forall h, (h < count)%nat -> phase order h (used h) (ps h);
  in_idle : forall h, (count <= h)%nat -> ps h = Return PNone /\ used h = 0%nat
}.

Lemma value_length : forall order, zlen (value order) = bs.
Proof.
  intro order. unfold value, changed. assert (Z0 : zlen (content t0 lba) = bs).
  { destruct D as [BD _ _]. destruct (BD 0%nat) as [X _ _]. apply X. exact L. }
  revert Z0. generalize (content t0 lba). induction order as [|h order IH]; intros b Z0; cbn [fold_left]; auto.
Qed.
Lemma value_snoc : forall order h, value (order ++ [h]) = f h (value order).
Proof. intros. unfold value, changed. rewrite fold_left_app. reflexivity. Qed.

Lemma phase_grows : forall order h used p x, phase order h used p -> x <> h -> phase (order ++ [x]) h used p.
Proof.
  intros order h used p x P N.
  assert (NI : ~ In h order -> ~ In h (order ++ [x])).
  { intros X Y. apply in_app_or in Y. destruct Y as [Y|[Y|[]]]; contradiction. }
  destruct P as [m I1 I2 I3 I4|m q I1 I2 I3 I4 I5|I1 I2|I1 I2 I3].
  - apply ph_read; auto. rewrite app_length. lia.
  - replace (firstn q order) with (firstn q (order ++ [x])).
    + apply ph_swap; auto. rewrite app_length. lia.
    + rewrite firstn_app. replace (q - length order)%nat with 0%nat by lia. rewrite firstn_O. apply app_nil_r.
  - apply ph_done; auto. apply in_or_app. auto.
  - apply ph_fail; auto. rewrite app_length. lia.
Qed.

(** The state of the device after a move, from what the move must have been. *)
Lemma moved : forall h t c next met t1 p1 k t2 a, moves (tgt h) (padded h) t (Do c next) met t1 p1 ->
  issued c = Ok k -> tgt h t (command_of k) (data_out k) = (t2, a) -> met = [t] /\ t1 = t2 /\ p1 = next (seen (padded h) c k a).
Proof.
  intros h t c next met t1 p1 k t2 a M J E. inversion M; subst; try congruence.
  rewrite J in *. match goal with H : Ok _ = Ok _ |- _ => injection H as <- end.
  rewrite E in *. match goal with H : (_, _) = (_, _) |- _ => injection H as <- <- end. auto.
Qed.

Lemma step_keeps : forall t ps order used h met t1 p1, invariant t ps order used -> moves (tgt h) (padded h) t (ps h) met t1 p1 ->
  exists order', invariant t1 (replaced h p1 ps) order' (fun x => if Nat.eqb x h then (used x + length met)%nat else used x).
Proof.
  intros t ps order used h met t1 p1 [I1 I2 I3 I4 I5 I6] M.
  destruct (Nat.lt_ge_cases h count) as [Lt|Ge]; [|rewrite (proj1 (I6 h Ge)) in M; inversion M].
  pose proof (I5 h Lt) as P.
  assert (Frame : forall order' q, (forall x, (x < count)%nat -> x <> h -> phase order' x (used x) (ps x)) ->
    phase order' h (used h + length met) q ->
    (forall x, (x < count)%nat -> phase order' x (if Nat.eqb x h then (used x + length met)%nat else used x) (replaced h q ps x)) /\
    (forall x, (count <= x)%nat -> replaced h q ps x = Return PNone /\ (if Nat.eqb x h then (used x + length met)%nat else used x) = 0%nat)).
  { intros order' q A1 A2. split; intros x X; unfold replaced; destruct (Nat.eqb_spec x h) as [->|N]; auto; lia. }
  destruct P as [m N1 N2 N3 N4|m q N1 N2 N3 N4 N5|N1 N2|N1 N2 N3]; try (inversion M; fail).
  - (* READ *)
    destruct (Hr h) as (R & Pr & F). destruct (block_read h (padded h) (rd h) lba t R Pr F L) as (k & t2 & a & J & Mo & E & O & S & K).
    rewrite trying_unfold in M. destruct (moved _ _ _ _ _ _ _ _ _ _ M J E) as (-> & -> & ->).
    rewrite S. cbv beta iota. exists order.
    assert (Q : phase order h (used h + length [t]) (swapping h m (content t lba))).
    { rewrite I1. rewrite <- (firstn_all order) at 2. apply ph_swap; auto. all: cbn [length]; lia. }
    destruct (Frame order _ (fun x X _ => I5 x X) Q) as [A1 A2]. split; auto.
    + rewrite K by lia. exact I1.
    + intros j J1 J2. rewrite K by lia. auto.
  - (* COMPARE AND WRITE *)
    set (old := value (firstn q order)) in *.
    assert (Zo : zlen old = bs) by apply value_length.
    destruct (block_swap h (padded h) lba t old (f h old) L Zo (Hf h old Zo)) as (Pr & k & t2 & a & J & Mo & E & O & R).
    unfold swapping in M. destruct (moved _ _ _ _ _ _ _ _ _ _ M J E) as (-> & -> & ->).
    destruct R as [(R1 & R2 & R3 & R4)|(R1 & R2 & R3)]; rewrite R2; cbv beta iota.
    + exists (order ++ [h]).
      assert (Q : phase (order ++ [h]) h (used h + length [t]) (Return PNone)).
      { apply ph_done; [apply in_or_app; right; left; reflexivity|cbn [length]; lia]. }
      destruct (Frame (order ++ [h]) _ (fun x X N => phase_grows _ _ _ _ h (I5 x X) (not_eq_sym N)) Q) as [A1 A2]. split; auto.
      * rewrite R3, value_snoc, <- I1, R1. reflexivity.
      * intros j J1 J2. rewrite R4 by lia. auto.
      * apply NoDup_rev in I3. rewrite <- (rev_involutive (order ++ [h])). apply NoDup_rev. rewrite rev_app_distr. cbn [rev app].
        constructor; [intro X; apply in_rev in X; contradiction|exact I3].
      * intros x X. apply in_app_or in X. destruct X as [X|[<-|[]]]; auto.
    + assert (Lt2 : (q < length order)%nat).
      { destruct (Nat.eq_dec q (length order)) as [X|X]; [|lia]. exfalso. apply R1. unfold old. rewrite X, firstn_all. exact I1. }
      destruct D as [_ [_ MC] _]. exists order.
      assert (Q : phase order h (used h + length [t])
        (match m with Datatypes.S m => if miscompared (pad 255 sense) then trying h m else Fail (EAsiCheckCondition (pad 255 sense))
         | O => Fail (EAsiCheckCondition (pad 255 sense)) end)).
      { rewrite miscompared_pad, MC. destruct m as [|m].
        - apply ph_fail; cbn [length]; auto; lia.
        - apply ph_read; cbn [length]; auto; lia. }
      destruct (Frame order _ (fun x X _ => I5 x X) Q) as [A1 A2]. split; auto.
      * rewrite R3 by lia. exact I1.
      * intros j J1 J2. rewrite R3 by lia. auto.
Qed.

Lemma run_keeps : forall t ps trace t' ps', together tgt padded t ps trace t' ps' -> forall order used, invariant t ps order used ->
  exists order' used', invariant t' ps' order' used' /\ forall h, used' h = (used h + length (met_by h trace))%nat.
Proof.
  intros t ps trace t' ps' G. induction G as [t ps|t ps x met t1 p1 trace t' ps' M G IH]; intros order used I.
  - exists order, used. split; [exact I|]. intro h. cbn. lia.
  - destruct (step_keeps _ _ _ _ _ _ _ _ I M) as (o1 & I1). destruct (IH _ _ I1) as (o2 & u2 & I2 & U).
    exists o2, u2. split; [exact I2|]. intro h. rewrite U, met_cons, app_length, (Nat.eqb_sym x h).
    destruct (Nat.eqb h x); cbn [length]; lia.
Qed.

Lemma starts : invariant t0 (crowd count (fun h => updating (rd h) lba bs (f h) (tries h))) [] (fun _ => 0%nat).
Proof.
  split; auto.
  - constructor.
  - intros h [].
  - intros h Lt. unfold crowd. destruct (Nat.ltb_spec h count); [|lia]. apply ph_read; auto; lia.
  - intros h Ge. unfold crowd. destruct (Nat.ltb_spec h count); [lia|]. auto.
Qed.

Lemma no_lost_update : forall trace t' ps',
  together tgt padded t0 (crowd count (fun h => updating (rd h) lba bs (f h) (tries h))) trace t' ps' ->
  exists order, NoDup order /\ (forall h, In h order <-> (h < count)%nat /\ ps' h = Return PNone) /\
    content t' lba = changed f order (content t0 lba) /\
    (forall k, 0 <= k < capacity -> k <> lba -> content t' k = content t0 k) /\
    (forall h e, ps' h = Fail e -> e = EAsiCheckCondition (pad 255 sense) /\ (tries h < length order)%nat) /\
    (forall h, length (met_by h trace) <= 2 * Datatypes.S (tries h))%nat.
Proof.
  intros trace t' ps' G. destruct (run_keeps _ _ _ _ _ G _ _ starts) as (order & used & [I1 I2 I3 I4 I5 I6] & U).
  exists order. split; [exact I3|]. split; [|split; [exact I1|split; [exact I2|split]]].
  - intro h. split.
    + intro X. split; [auto|]. pose proof (I5 h (I4 h X)) as P. inversion P; try contradiction. reflexivity.
    + intros [Lt E]. pose proof (I5 h Lt) as P. rewrite E in P. inversion P as [m Z1 Z2 Z3 Z4 Z5|m q Z1 Z2 Z3 Z4 Z5 Z6|Z1 Z2|]; auto.
      all: destruct m; discriminate Z5.
  - intros h e E. destruct (Nat.lt_ge_cases h count) as [Lt|Ge]; [|rewrite (proj1 (I6 h Ge)) in E; discriminate E].
    pose proof (I5 h Lt) as P. rewrite E in P. inversion P as [m Z1 Z2 Z3 Z4 Z5|m q Z1 Z2 Z3 Z4 Z5 Z6|Z1 Z2|Z1 Z2]; auto.
    all: destruct m; discriminate Z5.
  - intro h. specialize (U h). destruct (Nat.lt_ge_cases h count) as [Lt|Ge]; [|rewrite (proj2 (I6 h Ge)) in U; lia].
    pose proof (I5 h Lt) as P. inversion P; lia.
Qed.

(** Nobody waits for anybody. *)
Lemma never_stuck : forall trace t' ps' h,
  together tgt padded t0 (crowd count (fun h => updating (rd h) lba bs (f h) (tries h))) trace t' ps' -> ended (ps' h) = None ->
  exists t1 p1, moves (tgt h) (padded h) t' (ps' h) [t'] t1 p1.
Proof.
  intros trace t' ps' h G E. destruct (run_keeps _ _ _ _ _ G _ _ starts) as (order & used & [I1 I2 I3 I4 I5 I6] & U).
  destruct (Nat.lt_ge_cases h count) as [Lt|Ge]; [|rewrite (proj1 (I6 h Ge)) in E; discriminate E].
  pose proof (I5 h Lt) as P. destruct P as [m N1 N2 N3 N4|m q N1 N2 N3 N4 N5|N1 N2|N1 N2 N3]; try discriminate E.
  - destruct (Hr h) as (R & Pr & F). destruct (block_read h (padded h) (rd h) lba t' R Pr F L) as (k & t2 & a & J & Mo & X & O & S & K).
    rewrite trying_unfold. do 2 eexists. eapply mv_command; eauto.
  - set (old := value (firstn q order)) in *. assert (Zo : zlen old = bs) by apply value_length.
    destruct (block_swap h (padded h) lba t' old (f h old) L Zo (Hf h old Zo)) as (Pr & k & t2 & a & J & Mo & X & O & R).
    unfold swapping. do 2 eexists. eapply mv_command; eauto.
Qed.

Lemma all_succeed : forall trace t' ps', (forall h, (h < count)%nat -> (count <= Datatypes.S (tries h))%nat) ->
  together tgt padded t0 (crowd count (fun h => updating (rd h) lba bs (f h) (tries h))) trace t' ps' ->
  (forall h, ended (ps' h) <> None) ->
  (forall h, ps' h = Return PNone) /\
  exists order, Permutation order (seq 0 count) /\ content t' lba = changed f order (content t0 lba).
Proof.
  intros trace t' ps' Tr G E. pose proof G as G'.
  destruct (run_keeps _ _ _ _ _ G _ _ starts) as (order & used & [I1 I2 I3 I4 I5 I6] & U).
  assert (A : forall h, (h < count)%nat -> ps' h = Return PNone /\ In h order).
  { intros h Lt. specialize (E h). pose proof (I5 h Lt) as P. destruct P as [m N1 N2 N3 N4|m q N1 N2 N3 N4 N5|N1 N2|N1 N2 N3]; auto.
    - exfalso. apply E. destruct m; reflexivity.
    - exfalso. apply E. reflexivity.
    - exfalso. assert (X : (length (h :: order) <= count)%nat).
      { rewrite <- (seq_length count 0). apply NoDup_incl_length; [constructor; auto|].
        intros x [<-|X]; apply in_seq; [lia|]. specialize (I4 x X). lia. }
      cbn [length] in X. specialize (Tr h Lt). lia. }
  split.
  - intro h. destruct (Nat.lt_ge_cases h count) as [Lt|Ge]; [apply (A h Lt)|apply (I6 h Ge)].
  - exists order. split; [|exact I1]. apply NoDup_Permutation; [exact I3|apply seq_NoDup|].
    intro x. rewrite in_seq. split; [intro X; specialize (I4 x X); lia|intro X; apply A; lia].
Qed.
End Disk.

(** * One command *)

Lemma compare_runs : forall T (sys : system T) tgt content bs capacity sense lba n old new t s, one_of_four sys -> idle sys s t ->
  compare_disk (fun _ => tgt) content bs capacity sense -> 1 <= bs < 2 ^ 31 -> 0 <= lba < 2 ^ 64 -> 0 <= n < 2 ^ 8 -> lba + n <= capacity ->
  2 * n * bs < 2 ^ 32 -> zlen old = n * bs -> zlen new = n * bs ->
  exists s' t', idle sys s' t' /\
    ((blocks (content t) lba (Z.to_nat n) = old /\
      sync_wait_ends (coroutine (os_of sys tgt) (Do (CompareAndWrite lba (old ++ new) n bs []) finish)) s s' (shown (Ok PNone)) /\
      forall k, 0 <= k < capacity -> content t' k = written bs lba n new (content t) k) \/
     (blocks (content t) lba (Z.to_nat n) <> old /\
      sync_wait_ends (coroutine (os_of sys tgt) (Do (CompareAndWrite lba (old ++ new) n bs []) finish)) s s'
        (shown (Err (EAsiCheckCondition (pad 255 sense)))) /\
      forall k, 0 <= k < capacity -> content t' k = content t k)).
Proof.
  intros T sys tgt content bs capacity sense lba n old new t s F I D B L N C M Zo Zn.
  destruct (blocks_swap (fun _ => tgt) content bs capacity sense D B 0%nat (pads sys) lba n t old new ltac:(lia) N C ltac:(lia) M Zo Zn)
    as (P & k & t1 & a & J & Mo & E & O & R).
  assert (X : does tgt (pads sys) t (Do (CompareAndWrite lba (old ++ new) n bs []) finish) t1 (seen (pads sys) (CompareAndWrite lba (old ++ new) n bs []) k a)).
  { eapply does_seen; eauto. apply does_finish. }
  destruct (adaptive _ sys _ _ _ _ _ s F X I) as (s' & Y & Y2). exists s', t1. split; [exact Y2|].
  destruct R as [(R1 & R2 & R3)|(R1 & R2 & R3)]; rewrite R2 in Y; [left|right]; auto.
Qed.

(** * WRITE loses changes *)

Lemma block_write : forall T (tgt : target T) content bs capacity padded lba t new, block_device tgt content bs capacity -> 1 <= bs < 2 ^ 31 ->
  capacity <= 2 ^ 64 -> 0 <= lba < capacity -> zlen new = bs ->
  proper (Write16 lba new bs []) /\
  exists k t1 a, issued (Write16 lba new bs []) = Ok k /\ moderate k /\ tgt t (command_of k) (data_out k) = (t1, a) /\ ordinary a /\
    seen padded (Write16 lba new bs []) k a = Ok PNone /\ content t1 lba = new.
Proof.
  intros T tgt content bs capacity padded lba t new [_ _ WR] B Cap L Zn.
  assert (P : proper (Write16 lba new bs [])) by (cbn; split; [constructor|lia]).
  assert (F : arguments_fit (Write16 lba new bs [])).
  { cbn [arguments_fit]. unfold settings_fit, setting. cbn [lookup]. rewrite Zn, Z.mod_same, Z.div_same by lia.
    repeat split; try lia. repeat constructor; cbn; lia. }
  assert (W : write_of (Write16 lba new bs []) lba new bs) by (cbn; auto).
  destruct (write_issue _ lba new bs ltac:(lia) W P F) as (o & cdb & f & C & Q & I & Pr & L0 & Zd).
  rewrite Zn, Z.div_same in I by lia.
  destruct (WR t cdb new lba 1 f I Pr L0 ltac:(lia) ltac:(lia) ltac:(lia)) as (t1 & E & K).
  assert (J : issued (Write16 lba new bs []) = Ok (WriteCmd cdb new)) by (unfold issued; rewrite C; exact Q).
  split; [exact P|]. exists (WriteCmd cdb new), t1, (good []). split; [exact J|]. split; [unfold moderate; lia|].
  split; [exact E|]. split; [apply ordinary_good|]. split.
  - apply write_seen; [|exact J]. intros o' C'. eapply write_finish; eauto.
  - rewrite K by lia. unfold written. replace ((lba <=? lba) && (lba <? lba + 1)) with true
      by (symmetry; rewrite andb_true_iff, Z.leb_le, Z.ltb_lt; lia).
    rewrite Z.sub_diag. cbn [Z.mul Z.add]. unfold slice. rewrite skipn_O, Nat.sub_0_r.
    rewrite <- Zn. unfold zlen. rewrite Nat2Z.id. apply firstn_all.
Qed.

Lemma lost_update : forall T tgt content bs capacity sense lba f rd padded (t : T), compare_disk tgt content bs capacity sense ->
  1 <= bs < 2 ^ 31 -> capacity <= 2 ^ 64 -> 0 <= lba < capacity -> (forall h b, zlen b = bs -> zlen (f h b) = bs) ->
  (forall h, read_of (rd h) lba 1 bs /\ proper (rd h) /\ arguments_fit (rd h)) ->
  exists trace t' ps', together tgt padded t (crowd 2 (fun h => overwriting (rd h) lba bs (f h))) trace t' ps' /\
    (forall h, ps' h = Return PNone) /\ content t' lba = f 1%nat (content t lba).
Proof.
  intros T tgt content bs capacity sense lba f rd padded t D B Cap L Hf Hr.
  assert (Zc : zlen (content t lba) = bs) by (destruct D as [BD _ _]; destruct (BD 0%nat) as [X _ _]; apply X; exact L).
  destruct (Hr 0%nat) as (R0 & P0 & F0). destruct (Hr 1%nat) as (R1 & P1 & F1).
  destruct (block_read tgt content bs capacity sense D B 0%nat (padded 0%nat) (rd 0%nat) lba t R0 P0 F0 L) as (k0 & t1 & a0 & J0 & M0 & E0 & O0 & S0 & K0).
  destruct (block_read tgt content bs capacity sense D B 1%nat (padded 1%nat) (rd 1%nat) lba t1 R1 P1 F1 L) as (k1 & t2 & a1 & J1 & M1 & E1 & O1 & S1 & K1).
  destruct D as [BD _ _].
  destruct (block_write T (tgt 0%nat) content bs capacity (padded 0%nat) lba t2 (f 0%nat (content t lba)) (BD 0%nat) B Cap L (Hf _ _ Zc)) as (P2 & k2 & t3 & a2 & J2 & M2 & E2 & O2 & S2 & K2).
  destruct (block_write T (tgt 1%nat) content bs capacity (padded 1%nat) lba t3 (f 1%nat (content t lba)) (BD 1%nat) B Cap L (Hf _ _ Zc)) as (P3 & k3 & t4 & a3 & J3 & M3 & E3 & O3 & S3 & K3).
  rewrite K0 in S1 by lia.
  pose proof (fun next => mv_command (tgt 0%nat) (padded 0%nat) t (rd 0%nat) next k0 t1 a0 P0 J0 M0 E0 O0) as V0.
  pose proof (fun next => mv_command (tgt 1%nat) (padded 1%nat) t1 (rd 1%nat) next k1 t2 a1 P1 J1 M1 E1 O1) as V1.
  pose proof (fun next => mv_command (tgt 0%nat) (padded 0%nat) t2 _ next k2 t3 a2 P2 J2 M2 E2 O2) as V2.
  pose proof (fun next => mv_command (tgt 1%nat) (padded 1%nat) t3 _ next k3 t4 a3 P3 J3 M3 E3 O3) as V3.
  rewrite S0 in V0. rewrite S1 in V1. rewrite S2 in V2. rewrite S3 in V3.
  do 3 eexists. split; [|split].
  - eapply tg_step with (h := 0%nat); [apply V0|]. eapply tg_step with (h := 1%nat); [apply V1|].
    eapply tg_step with (h := 0%nat); [apply V2|]. eapply tg_step with (h := 1%nat); [apply V3|]. apply tg_nil.
  - intro h. cbn [finish]. unfold replaced, crowd. destruct h as [|[|h]]; reflexivity.
  - exact K3.
Qed.
