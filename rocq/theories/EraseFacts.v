(** Lemmas on the coroutines that erase disks and give blocks back. *)
From Coq Require Import String ZArith List Bool Lia PeanoNat.
From Verif Require Import ResponseLemmas LayoutFacts PageFacts VpdFacts.
From Verif Require Import Base BaseFacts Gen SpecGen GenFacts Executer SpecCall ExecFacts
  OsCommon OsLinux OsSolaris OsAix OsWin32 SpecSg SpecDrivers SpecSession LinuxFacts SessionFacts
  Instruct Command CdbPrimary CdbBlock SpecDevice SpecCdb CdbPrimaryFacts CdbBlockFacts UnmapFacts CdbResponseFacts CdbAllFacts CdbPropFacts SpecExecute
  ExecuteFacts SpecLayout SpecPages SpecVpd Pages Sense SpecSense SenseFacts SpecPortable PortableFacts DiskFacts SpecReserve ReserveFacts SpecAdaptive AdaptiveFacts
  SpecShared SharedFacts SpecDiscover DiscoverFacts SpecClone CloneFacts SpecErase.
Import ListNotations.
Local Open Scope string_scope.
Local Open Scope list_scope.
Local Open Scope Z_scope.

(** * Ranges *)

Lemma within_true : forall l k, within l k = true <-> exists e, In e l /\ fst e <= k < fst e + snd e.
Proof.
  intros l k. unfold within. rewrite existsb_exists. split; intros (e & I & H); exists e; split; auto.
  - apply andb_true_iff in H. rewrite Z.leb_le, Z.ltb_lt in H. exact H.
  - apply andb_true_iff. rewrite Z.leb_le, Z.ltb_lt. exact H.
Qed.
Lemma within_same : forall l1 l2 k, ((exists e, In e l1 /\ fst e <= k < fst e + snd e) <-> (exists e, In e l2 /\ fst e <= k < fst e + snd e)) ->
  within l1 k = within l2 k.
Proof. intros l1 l2 k H. rewrite <- !within_true in H. destruct (within l1 k), (within l2 k); intuition congruence. Qed.

Lemma within_extents : forall lba n chunk k, 0 <= n -> 1 <= chunk -> within (extents lba n chunk) k = within [(lba, n)] k.
Proof.
  intros lba n chunk k N C. apply within_same. split; intros (e & I & H).
  - destruct (extent_ok lba n chunk N C e I) as (A1 & A2 & A3). exists (lba, n). cbn [fst snd]. split; [left; reflexivity|]. lia.
  - destruct I as [<-|[]]. cbn [fst snd] in H. apply extent_of; auto.
Qed.
Lemma within_pieces : forall most ranges k, 1 <= most -> Forall (fun r => 0 <= snd r) ranges -> within (pieces most ranges) k = within ranges k.
Proof.
  intros most ranges k M F. unfold pieces. induction F as [|r ranges R F IH]; [reflexivity|].
  cbn [flat_map]. unfold within in *. rewrite existsb_app, IH. cbn [existsb]. f_equal.
  pose proof (within_extents (fst r) (snd r) (Z.min most (2 ^ 32 - 1)) k R ltac:(lia)) as W. unfold within in W. rewrite W.
  cbn [existsb fst snd]. apply orb_false_r.
Qed.
Lemma piece_in : forall most n ranges e, 1 <= most -> ranges_in n ranges -> In e (pieces most ranges) ->
  0 <= fst e /\ 1 <= snd e <= most /\ snd e < 2 ^ 32 /\ fst e + snd e <= n.
Proof.
  intros most n ranges e M F I. unfold pieces in I. apply in_flat_map in I. destruct I as (r & Ir & I).
  unfold ranges_in in F. rewrite Forall_forall in F. specialize (F r Ir). cbv beta in F.
  destruct (extent_ok (fst r) (snd r) (Z.min most (2 ^ 32 - 1)) ltac:(lia) ltac:(lia) e I) as (A1 & A2 & A3). lia.
Qed.

(** * The commands *)

Lemma unmap_issue : forall ranges, proper (Unmap ranges []) /\
  (unmap_fits ranges [] -> exists cdb p, issued (Unmap ranges []) = Ok (WriteCmd cdb p) /\ interpret cdb = Some (OpUnmap 0 0 (zlen p)) /\
    zlen p = 8 + 16 * zlen ranges /\ unmap_block_descriptor_length p = 16 * zlen ranges /\ unmap_descriptors p = ranges) /\
  (~ unmap_fits ranges [] -> exists e, issued (Unmap ranges []) = Err e).
Proof.
  intros ranges. assert (P : proper (Unmap ranges [])) by constructor. split; [exact P|].
  pose proof (unmap_ranges_sent ranges [] P) as S.
  assert (J : issued (Unmap ranges []) = do o <- unmap ranges; request (assigned [] o)).
  { unfold issued. cbn [constructed]. rewrite with_settings_request. reflexivity. }
  rewrite J. destruct (do o <- unmap ranges; request (assigned [] o)) as [[cdb d|cdb p]|e].
  - contradiction.
  - destruct S as (F & I & L & D & R). split; [|intro X; contradiction]. intros _. exists cdb, p. auto.
  - split; [intro X; contradiction|]. eauto.
Qed.
Lemma unmap_finish : forall ranges o, constructed (Unmap ranges []) = Ok o -> o_finish o = raw_result.
Proof.
  intros ranges o C. cbn [constructed] in C. unfold with_settings in C.
  destruct (unmap ranges) as [x|e] eqn:E; cbn [bind] in C; [|discriminate C].
  assert (X : o_finish x = raw_result).
  { unfold unmap in E. repeat (match type of E with (match ?y with _ => _ end) = _ => destruct y | (do _ <- ?y; _) = _ => destruct y end; cbn [bind] in E; try discriminate E).
    all: injection E as <-; reflexivity. }
  injection C as <-. exact X.
Qed.

Lemma same_fits : settings_fit [("wrprotect", 3); ("unmap", 1); ("pbdata", 1); ("lbdata", 1); ("group_number", 5)] [].
Proof. unfold settings_fit, setting. cbn [lookup]. repeat constructor; cbn; lia. Qed.
Lemma same_issue : forall lba data m bs, proper (WriteSame16 lba data m bs []) /\
  (0 <= lba < 2 ^ 64 -> 0 <= m < 2 ^ 32 -> zlen data mod 512 = 0 ->
    exists cdb, issued (WriteSame16 lba data m bs []) = Ok (WriteCmd cdb data) /\ interpret cdb = Some (OpWriteSame lba m 0 0 0 0 0)) /\
  (zlen data mod 512 <> 0 -> issued (WriteSame16 lba data m bs []) = Err EAssertion).
Proof.
  intros lba data m bs. assert (P : proper (WriteSame16 lba data m bs [])) by constructor. split; [exact P|].
  assert (J : issued (WriteSame16 lba data m bs []) = do o <- write_same16 lba data m bs; request (assigned [] o)).
  { unfold issued. cbn [constructed]. rewrite with_settings_request. reflexivity. }
  split.
  - intros L M Z5. destruct (issued_cases _ P) as [I _]. destruct I as (o & k & _ & _ & K).
    { cbn [arguments_fit]. split; [exact L|]. split; [exact M|]. split; [exact Z5|apply same_fits]. }
    rewrite K in J. symmetry in J. destruct (tells_ok _ _ _ _ _ (write_same16_spec lba data m bs [] P) J) as (_ & cdb & -> & X).
    exists cdb. split; [exact K|exact X].
  - intro Z5. rewrite J. unfold write_same16. replace (zlen data mod 512 =? 0) with false by (symmetry; apply Z.eqb_neq; exact Z5). reflexivity.
Qed.
Lemma same_finish : forall lba data m bs o, constructed (WriteSame16 lba data m bs []) = Ok o -> o_finish o = raw_result.
Proof.
  intros lba data m bs o C. cbn [constructed] in C. unfold with_settings in C.
  destruct (write_same16 lba data m bs) as [x|e] eqn:E; cbn [bind] in C; [|discriminate C].
  assert (X : o_finish x = raw_result).
  { unfold write_same16 in E. repeat (match type of E with (match ?y with _ => _ end) = _ => destruct y | (do _ <- ?y; _) = _ => destruct y end; cbn [bind] in E; try discriminate E).
    all: injection E as <-; reflexivity. }
  injection C as <-. exact X.
Qed.

(** The result of a command that sends data and is rejected. *)
Lemma rejected_seen : forall padded c k sense, seen padded c k (rejection sense) = Err (EAsiCheckCondition (pad 255 sense)).
Proof. reflexivity. Qed.

Lemma ub_nonneg : forall a b page, bytes_ok page -> 0 <= ub a b page.
Proof.
  intros a b page O. unfold ub. apply be_val_bounds. unfold slice. apply Forall_forall. intros x I.
  unfold bytes_ok in O. rewrite Forall_forall in O. apply O.
  rewrite <- (firstn_skipn a page). apply in_or_app. right. rewrite <- (firstn_skipn (b - a) (skipn a page)). apply in_or_app. left. exact I.
Qed.

Section Thin.
Context {T : Type} (tgt : target T) (content : T -> Z -> bytes) (bs n : Z) (page sense : bytes).
Hypothesis D : thin_disk tgt content bs n page sense.
Hypothesis P : full_page page.

Let same (t t' : T) := forall k, 0 <= k < n -> content t' k = content t k.

(** The answer to the inquiry, whatever the size of the page. *)
Lemma page_ask : forall padded next t, 0 < zlen page <= 252 -> exists t1, same t t1 /\
  forall t' r, does tgt padded t1 (next (unpack block_limits (filled padded 252 page))) t' r -> does tgt padded t (Do (vpd_command 176) next) t' r.
Proof.
  intros padded next t L. destruct (vpd_issued 176 ltac:(unfold below; lia)) as (cdb & J & X). change (fst (vpd_page 176)) with 252 in *.
  destruct (td_page _ _ _ _ _ _ D t cdb [] 252 X) as (t1 & E & S). exists t1. split; [exact S|]. intros t' r H.
  eapply does_seen; [exact Logic.I|exact J|cbn [moderate]; lia|exact E|apply ordinary_good| |exact H].
  unfold vpd_command. change (fst (vpd_page 176)) with 252. rewrite inquiry_seen by exact L. reflexivity.
Qed.

Lemma limits_ask : forall padded next t, exists t1 v, same t t1 /\
  attr "maximum_unmap_lba_count" v = most_blocks page /\ attr "maximum_unmap_block_descriptor_count" v = most_descriptors page /\
  attr "maximum_write_same_length" v = longest_same page /\
  forall t' r, does tgt padded t1 (next v) t' r -> does tgt padded t (with_limits next) t' r.
Proof.
  intros padded next t. destruct P as [O L]. unfold with_limits.
  match goal with |- context [Do (vpd_command 176) ?f] => destruct (page_ask padded f t ltac:(lia)) as (t1 & S & K) end.
  assert (R := limits_reads page O ltac:(unfold zlen in L; lia) (if padded then Z.to_nat 252 - length page else 0)%nat).
  change (get_vpd_page_data 176) with block_limits in R. unfold filled in K. rewrite R in K.
  exists t1. eexists. split; [exact S|]. split; [|split; [|split; [|exact K]]]; reflexivity.
Qed.

(** * One command for each piece *)

Lemma each_piece : forall padded cmd v l,
  (forall e t next, In e l -> exists t1, (forall k, 0 <= k < n -> content t1 k = if within [e] k then v else content t k) /\
     forall t' r, does tgt padded t1 (next (Ok PNone)) t' r -> does tgt padded t (Do (cmd e) next) t' r) ->
  forall t, exists t', does tgt padded t (for_each cmd l) t' (Ok PNone) /\
    forall k, 0 <= k < n -> content t' k = if within l k then v else content t k.
Proof.
  intros padded cmd v l. induction l as [|e l IH]; intros H t.
  - exists t. split; [constructor|reflexivity].
  - cbn [for_each].
    match goal with |- context [Do (cmd e) ?f] => destruct (H e t f (or_introl eq_refl)) as (t1 & S1 & K1) end.
    destruct (IH (fun e' t' nx I => H e' t' nx (or_intror I)) t1) as (t2 & D2 & S2).
    exists t2. split; [apply K1; exact D2|]. intros k L. rewrite S2, S1 by exact L. unfold within. cbn [existsb]. rewrite orb_false_r.
    destruct (_ && _), (existsb _ l); reflexivity.
Qed.

(** * UNMAP *)

Lemma unmap_ask : forall padded ranges t next, unmap_fits ranges [] -> exists t1,
  (forall k, 0 <= k < n -> content t1 k = if unmaps page n ranges && within ranges k then zeros (Z.to_nat bs) else content t k) /\
  forall t' r, does tgt padded t1 (next (if unmaps page n ranges then Ok PNone else Err (EAsiCheckCondition (pad 255 sense)))) t' r ->
    does tgt padded t (Do (Unmap ranges []) next) t' r.
Proof.
  intros padded ranges t next F. destruct (unmap_issue ranges) as (Pr & I & _). destruct (I F) as (cdb & p & J & X & L & B & R).
  destruct (td_unmap _ _ _ _ _ _ D t cdb p 0 X ltac:(lia)) as (t1 & E & S). rewrite R in *.
  exists t1. split; [exact S|]. intros t' r H.
  assert (M : moderate (WriteCmd cdb p)).
  { cbn [moderate]. destruct F as (_ & F & _). lia. }
  destruct (unmaps page n ranges) eqn:U.
  - eapply (does_seen _ _ _ _ _ _ (WriteCmd cdb p)); [exact Pr|exact J|exact M|exact E|apply ordinary_good| |exact H].
    apply write_seen; [|exact J]. apply unmap_finish.
  - eapply (does_seen _ _ _ _ _ _ (WriteCmd cdb p)); [exact Pr|exact J|exact M|exact E| |apply rejected_seen|exact H].
    apply ordinary_rejection. exact (td_sense _ _ _ _ _ _ D).
Qed.

Lemma trim_does : forall padded ranges t, n <= 2 ^ 64 -> ranges_in n ranges -> most_blocks page <> 0 -> most_descriptors page <> 0 ->
  exists t', does tgt padded t (trim ranges) t' (Ok PNone) /\
    forall k, 0 <= k < n -> content t' k = if within ranges k then zeros (Z.to_nat bs) else content t k.
Proof.
  intros padded ranges t N R M1 M2. destruct P as [O _].
  pose proof (ub_nonneg 20 24 page O) as U1. pose proof (ub_nonneg 24 28 page O) as U2. fold (most_blocks page) in U1. fold (most_descriptors page) in U2.
  unfold trim. match goal with |- context [with_limits ?f] => destruct (limits_ask padded f t) as (t1 & v & S1 & A1 & A2 & _ & K) end.
  cbv zeta in K. rewrite A1, A2 in K. replace (most_blocks page =? 0) with false in K by (symmetry; apply Z.eqb_neq; exact M1).
  replace (most_descriptors page =? 0) with false in K by (symmetry; apply Z.eqb_neq; exact M2). cbn [orb] in K.
  destruct (each_piece padded (fun e => Unmap [e] []) (zeros (Z.to_nat bs)) (pieces (most_blocks page) ranges)) with (t := t1) as (t2 & D2 & S2).
  - intros [lba m] t0 next I. destruct (piece_in (most_blocks page) n ranges _ ltac:(lia) R I) as (L & M & M32 & C). cbn [fst snd] in *.
    assert (F : unmap_fits [(lba, m)] []).
    { split; [constructor; [cbn [fst snd]; lia|constructor]|]. split; [unfold zlen; cbn [length]; lia|].
      unfold settings_fit, setting. cbn [lookup]. repeat constructor; cbn; lia. }
    destruct (unmap_ask padded [(lba, m)] t0 next F) as (t3 & S3 & K3).
    assert (U : unmaps page n [(lba, m)] = true).
    { unfold unmaps, total. cbn [map fold_right forallb fst snd]. unfold zlen. cbn [length]. rewrite !andb_true_iff, !Z.leb_le. lia. }
    rewrite U in *. exists t3. split; [exact S3|exact K3].
  - exists t2. split; [apply K; exact D2|]. intros k L. rewrite S2, S1 by exact L. rewrite within_pieces; [reflexivity|lia|].
    revert R. apply Forall_impl. intros r X. lia.
Qed.

Lemma unsupported_does : forall padded ranges t, most_blocks page = 0 \/ most_descriptors page = 0 ->
  exists t', does tgt padded t (trim ranges) t' (Err EValue) /\ same t t'.
Proof.
  intros padded ranges t H. unfold trim.
  match goal with |- context [with_limits ?f] => destruct (limits_ask padded f t) as (t1 & v & S1 & A1 & A2 & _ & K) end.
  exists t1. split; [|exact S1]. apply K. cbv zeta. rewrite A1, A2.
  replace ((most_blocks page =? 0) || (most_descriptors page =? 0)) with true; [constructor|].
  symmetry. apply orb_true_iff. rewrite !Z.eqb_eq. exact H.
Qed.

Lemma at_once_does : forall padded ranges t, unmap_fits ranges [] ->
  exists t', does tgt padded t (trim_at_once ranges) t' (if unmaps page n ranges then Ok PNone else Err (EAsiCheckCondition (pad 255 sense))) /\
    forall k, 0 <= k < n -> content t' k = if unmaps page n ranges && within ranges k then zeros (Z.to_nat bs) else content t k.
Proof.
  intros padded ranges t F. destruct (unmap_ask padded ranges t finish F) as (t1 & S1 & K1). exists t1. split; [|exact S1].
  apply K1. apply does_finish.
Qed.
Lemma at_once_refused : forall padded ranges t, ~ unmap_fits ranges [] -> exists e, does tgt padded t (trim_at_once ranges) t (Err e).
Proof.
  intros padded ranges t F. destruct (unmap_issue ranges) as (Pr & _ & I). destruct (I F) as [e J]. exists e. eapply does_refused; [exact J|]. apply does_finish.
Qed.

(** * WRITE SAME *)

Lemma same_ask : forall padded data lba m t next, zlen data = bs -> bs < 2 ^ 32 -> bs mod 512 = 0 -> 0 <= lba < 2 ^ 64 -> 0 <= m < 2 ^ 32 -> lba + m <= n ->
  exists t1, (forall k, 0 <= k < n -> content t1 k = if writes_same page n lba m && within [(lba, same_blocks n lba m)] k then data else content t k) /\
  forall t' r, does tgt padded t1 (next (if writes_same page n lba m then Ok PNone else Err (EAsiCheckCondition (pad 255 sense)))) t' r ->
    does tgt padded t (Do (WriteSame16 lba data m bs []) next) t' r.
Proof.
  intros padded data lba m t next Zd B B5 L M C. destruct (same_issue lba data m bs) as (Pr & I & _).
  destruct (I L M ltac:(congruence)) as (cdb & J & X).
  destruct (td_same _ _ _ _ _ _ D t cdb data lba m 0 X Zd ltac:(lia) ltac:(lia) C) as (t1 & E & S).
  exists t1. split; [exact S|]. intros t' r H.
  assert (Mo : moderate (WriteCmd cdb data)) by (cbn [moderate]; lia).
  destruct (writes_same page n lba m) eqn:U.
  - eapply (does_seen _ _ _ _ _ _ (WriteCmd cdb data)); [exact Pr|exact J|exact Mo|exact E|apply ordinary_good| |exact H].
    apply write_seen; [|exact J]. apply same_finish.
  - eapply (does_seen _ _ _ _ _ _ (WriteCmd cdb data)); [exact Pr|exact J|exact Mo|exact E| |apply rejected_seen|exact H].
    apply ordinary_rejection. exact (td_sense _ _ _ _ _ _ D).
Qed.

Lemma zero_does : forall padded data lba t, zlen data = bs -> bs < 2 ^ 32 -> bs mod 512 = 0 -> 0 <= lba < n -> n <= 2 ^ 64 ->
  refuses_zero page = false -> longest_same page = 0 \/ n - lba <= longest_same page ->
  exists t', does tgt padded t (Do (WriteSame16 lba data 0 bs []) finish) t' (Ok PNone) /\
    forall k, 0 <= k < n -> content t' k = if lba <=? k then data else content t k.
Proof.
  intros padded data lba t Zd B B5 L N Rz Lo.
  destruct (same_ask padded data lba 0 t finish Zd B B5 ltac:(lia) ltac:(lia) ltac:(lia)) as (t1 & S1 & K1).
  assert (U : writes_same page n lba 0 = true).
  { unfold writes_same, same_blocks. cbn [Z.eqb andb]. rewrite Rz. cbn [negb]. rewrite andb_true_r, orb_true_iff, Z.eqb_eq, Z.leb_le. exact Lo. }
  rewrite U in *. exists t1. split; [apply K1; apply does_finish|]. intros k Lk. rewrite S1 by exact Lk.
  unfold within, same_blocks. cbn [existsb fst snd Z.eqb andb]. replace (k <? lba + (n - lba)) with true by (symmetry; apply Z.ltb_lt; lia).
  rewrite andb_true_r, orb_false_r. reflexivity.
Qed.

Section Erase.
Context (more : bytes).
Hypothesis R : reports_capacity tgt content bs n more.
Hypothesis B : 1 <= bs < 2 ^ 32.
Hypothesis N : 1 <= n <= 2 ^ 64.

Lemma erase_start : forall padded pattern chunk t, exists t1, same t t1 /\
  forall t' r, does tgt padded t1
    (if bs =? zlen pattern then for_each (fun e => WriteSame16 (fst e) pattern (snd e) bs []) (extents 0 n (step_of chunk (longest_same page)))
     else Fail EValue) t' r -> does tgt padded t (erase pattern chunk) t' r.
Proof.
  intros padded pattern chunk t. unfold erase.
  match goal with |- context [with_capacity ?f] => destruct (capacity_does tgt content bs n more R B N padded t f) as (t1 & S1 & K1) end.
  cbv beta in K1.
  match type of K1 with context [with_limits ?f] => destruct (limits_ask padded f t1) as (t2 & v & S2 & _ & _ & A3 & K2) end.
  rewrite A3 in K2. exists t2. split; [intros k L; rewrite S2, S1 by exact L; reflexivity|]. intros t' r H. apply K1, K2, H.
Qed.

Lemma step_ok : forall chunk, 1 <= chunk -> 1 <= step_of chunk (longest_same page) <= chunk /\
  (longest_same page = 0 \/ step_of chunk (longest_same page) <= longest_same page).
Proof.
  intros chunk C. destruct P as [O _]. pose proof (ub_nonneg 36 44 page O) as U. fold (longest_same page) in U.
  unfold step_of. destruct (Z.eqb_spec (longest_same page) 0); lia.
Qed.

Lemma erase_does : forall padded pattern chunk t, zlen pattern = bs -> bs mod 512 = 0 -> 1 <= chunk < 2 ^ 32 ->
  exists t', does tgt padded t (erase pattern chunk) t' (Ok PNone) /\ forall k, 0 <= k < n -> content t' k = pattern.
Proof.
  intros padded pattern chunk t Zp B5 C. destruct (erase_start padded pattern chunk t) as (t1 & S1 & K1).
  rewrite Zp, Z.eqb_refl in K1. destruct (step_ok chunk ltac:(lia)) as (St & Lo). set (step := step_of _ _) in *.
  destruct (each_piece padded (fun e => WriteSame16 (fst e) pattern (snd e) bs []) pattern (extents 0 n step)) with (t := t1) as (t2 & D2 & S2).
  - intros [lba m] t0 next I. destruct (extent_ok 0 n step ltac:(lia) ltac:(lia) _ I) as (L & M & Cp). cbn [fst snd] in *.
    destruct (same_ask padded pattern lba m t0 next Zp ltac:(lia) B5 ltac:(lia) ltac:(lia) ltac:(lia)) as (t3 & S3 & K3).
    assert (Q : same_blocks n lba m = m) by (unfold same_blocks; destruct (Z.eqb_spec m 0); [lia|reflexivity]).
    assert (U : writes_same page n lba m = true).
    { unfold writes_same. rewrite Q. replace (m =? 0) with false by (symmetry; apply Z.eqb_neq; lia). cbn [andb negb].
      rewrite andb_true_r, orb_true_iff, Z.eqb_eq, Z.leb_le. lia. }
    rewrite U, Q in *. exists t3. split; [exact S3|exact K3].
  - exists t2. split; [apply K1; exact D2|]. intros k L. rewrite S2 by exact L.
    rewrite within_extents by lia. replace (within [(0, n)] k) with true; [reflexivity|]. symmetry. apply within_true.
    exists (0, n). cbn [fst snd]. split; [left; reflexivity|lia].
Qed.

Lemma erase_asserts : forall padded pattern chunk t, zlen pattern = bs -> bs mod 512 <> 0 -> 1 <= chunk ->
  exists t', does tgt padded t (erase pattern chunk) t' (Err EAssertion) /\ same t t'.
Proof.
  intros padded pattern chunk t Zp B5 C. destruct (erase_start padded pattern chunk t) as (t1 & S1 & K1).
  rewrite Zp, Z.eqb_refl in K1. destruct (step_ok chunk ltac:(lia)) as (St & Lo). set (step := step_of _ _) in *.
  exists t1. split; [|exact S1]. apply K1.
  destruct (extent_of 0 n step ltac:(lia) ltac:(lia) 0 ltac:(lia)) as (e & I & _).
  destruct (extents 0 n step) as [|e0 l]; [destruct I|]. cbn [for_each].
  destruct (same_issue (fst e0) pattern (snd e0) bs) as (_ & _ & J). eapply does_refused; [apply J; congruence|]. constructor.
Qed.

Lemma erase_mismatch : forall padded pattern chunk t, zlen pattern <> bs ->
  exists t', does tgt padded t (erase pattern chunk) t' (Err EValue) /\ same t t'.
Proof.
  intros padded pattern chunk t Zp. destruct (erase_start padded pattern chunk t) as (t1 & S1 & K1).
  replace (bs =? zlen pattern) with false in K1 by (symmetry; apply Z.eqb_neq; congruence).
  exists t1. split; [apply K1; constructor|exact S1].
Qed.
End Erase.
End Thin.

Lemma zeros_val : forall l, Forall (fun x => x = 0) l -> be_val l = 0.
Proof.
  intro l. induction l as [|x l IH] using rev_ind; intro H; [reflexivity|]. apply Forall_app in H. destruct H as [H1 H2].
  rewrite be_val_app1, IH by exact H1. inversion H2. lia.
Qed.

(** A page that ends before the fields. *)
Lemma short_page_does : forall T (tgt : target T) content bs n page sense padded ranges t, thin_disk tgt content bs n page sense ->
  bytes_ok page -> 0 < zlen page <= 20 ->
  exists t', does tgt padded t (trim ranges) t' (Err (if padded then EValue else EInstruct)) /\ forall k, 0 <= k < n -> content t' k = content t k.
Proof.
  intros T tgt content bs n page sense padded ranges t D O L. unfold trim, with_limits.
  match goal with |- context [Do (vpd_command 176) ?f] => destruct (page_ask tgt content bs n page sense D padded f t ltac:(lia)) as (t1 & S & K) end.
  exists t1. split; [|exact S]. apply K. rewrite block_limits_spec by (unfold filled; apply padded_ok; exact O).
  unfold filled. destruct padded.
  - replace (44 <=? _)%nat with true.
    2:{ symmetry. apply Nat.leb_le. rewrite app_length. unfold zeros, zlen in *. rewrite repeat_length. lia. }
    cbv beta iota zeta.
    assert (Z0 : forall a b m, (length page <= a)%nat -> ub a b (page ++ zeros m) = 0).
    { intros a b m La. unfold ub, slice. rewrite skipn_app, skipn_all2 by exact La. cbn [app].
      apply zeros_val. apply Forall_forall. intros x I. unfold zeros in I.
      apply (repeat_spec m 0 x). rewrite <- (firstn_skipn (a - length page) (repeat 0 m)). apply in_or_app. right.
      rewrite <- (firstn_skipn (b - a) (skipn _ _)). apply in_or_app. left. exact I. }
    assert (A : forall m, attr "maximum_unmap_lba_count" (PObj "BlockLimitsVPDPageBuffer"
                   (peripheral_value (page ++ zeros m) :: layout_values block_limits_layout (page ++ zeros m))) = ub 20 24 (page ++ zeros m)) by (intro; reflexivity).
    rewrite A. rewrite Z0 by (unfold zlen in L; lia). constructor.
  - replace (44 <=? _)%nat with false; [constructor|]. symmetry. apply Nat.leb_gt. rewrite app_length. cbn [zeros repeat length]. unfold zlen in L. lia.
Qed.

Section Runs.
Context {T : Type} (sys : system T) (tgt : target T) (content : T -> Z -> bytes) (bs n : Z) (page sense : bytes).
Hypothesis F : one_of_four sys.
Hypothesis D : thin_disk tgt content bs n page sense.

Let runs := @CloneFacts.runs T sys tgt F.

Lemma erase_runs : forall more pattern chunk s t, idle sys s t -> full_page page -> reports_capacity tgt content bs n more ->
  1 <= bs < 2 ^ 32 -> 1 <= n <= 2 ^ 64 -> zlen pattern = bs -> bs mod 512 = 0 -> 1 <= chunk < 2 ^ 32 ->
  exists s' t', sync_wait_ends (coroutine (os_of sys tgt) (erase pattern chunk)) s s' (shown (Ok PNone)) /\
    idle sys s' t' /\ forall k, 0 <= k < n -> content t' k = pattern.
Proof. intros. apply runs with (t := t); auto. eapply erase_does; eauto. Qed.
Lemma asserts_runs : forall more pattern chunk s t, idle sys s t -> full_page page -> reports_capacity tgt content bs n more ->
  1 <= bs < 2 ^ 32 -> 1 <= n <= 2 ^ 64 -> zlen pattern = bs -> bs mod 512 <> 0 -> 1 <= chunk ->
  exists s' t', sync_wait_ends (coroutine (os_of sys tgt) (erase pattern chunk)) s s' (Threw EAssertion) /\
    idle sys s' t' /\ forall k, 0 <= k < n -> content t' k = content t k.
Proof. intros. apply (runs _ (Err EAssertion) _ s t); auto. eapply erase_asserts; eauto. Qed.
Lemma mismatch_runs : forall more pattern chunk s t, idle sys s t -> full_page page -> reports_capacity tgt content bs n more ->
  1 <= bs < 2 ^ 32 -> 1 <= n <= 2 ^ 64 -> zlen pattern <> bs ->
  exists s' t', sync_wait_ends (coroutine (os_of sys tgt) (erase pattern chunk)) s s' (Threw EValue) /\
    idle sys s' t' /\ forall k, 0 <= k < n -> content t' k = content t k.
Proof. intros. apply (runs _ (Err EValue) _ s t); auto. eapply erase_mismatch; eauto. Qed.
Lemma zero_runs : forall data lba s t, idle sys s t -> zlen data = bs -> bs < 2 ^ 32 -> bs mod 512 = 0 -> 0 <= lba < n -> n <= 2 ^ 64 ->
  refuses_zero page = false -> longest_same page = 0 \/ n - lba <= longest_same page ->
  exists s' t', sync_wait_ends (coroutine (os_of sys tgt) (Do (WriteSame16 lba data 0 bs []) finish)) s s' (shown (Ok PNone)) /\
    idle sys s' t' /\ forall k, 0 <= k < n -> content t' k = if lba <=? k then data else content t k.
Proof. intros. apply runs with (t := t); auto. eapply zero_does; eauto. Qed.
Lemma trim_runs : forall ranges s t, idle sys s t -> full_page page -> n <= 2 ^ 64 -> ranges_in n ranges ->
  most_blocks page <> 0 -> most_descriptors page <> 0 ->
  exists s' t', sync_wait_ends (coroutine (os_of sys tgt) (trim ranges)) s s' (shown (Ok PNone)) /\
    idle sys s' t' /\ forall k, 0 <= k < n -> content t' k = if within ranges k then zeros (Z.to_nat bs) else content t k.
Proof. intros. apply runs with (t := t); auto. eapply trim_does; eauto. Qed.
Lemma unsupported_runs : forall ranges s t, idle sys s t -> full_page page -> most_blocks page = 0 \/ most_descriptors page = 0 ->
  exists s' t', sync_wait_ends (coroutine (os_of sys tgt) (trim ranges)) s s' (Threw EValue) /\
    idle sys s' t' /\ forall k, 0 <= k < n -> content t' k = content t k.
Proof. intros. apply (runs _ (Err EValue) _ s t); auto. eapply unsupported_does; eauto. Qed.
Lemma short_runs : forall ranges s t, idle sys s t -> bytes_ok page -> 0 < zlen page <= 20 ->
  exists s' t', sync_wait_ends (coroutine (os_of sys tgt) (trim ranges)) s s' (Threw (if pads sys then EValue else EInstruct)) /\
    idle sys s' t' /\ forall k, 0 <= k < n -> content t' k = content t k.
Proof. intros. apply (runs _ (Err (if pads sys then EValue else EInstruct)) _ s t); auto. eapply short_page_does; eauto. Qed.
Lemma at_once_runs : forall ranges s t, idle sys s t -> unmap_fits ranges [] ->
  exists s' t', sync_wait_ends (coroutine (os_of sys tgt) (trim_at_once ranges)) s s'
      (shown (if unmaps page n ranges then Ok PNone else Err (EAsiCheckCondition (pad 255 sense)))) /\
    idle sys s' t' /\ forall k, 0 <= k < n -> content t' k = if unmaps page n ranges && within ranges k then zeros (Z.to_nat bs) else content t k.
Proof. intros. apply runs with (t := t); auto. eapply at_once_does; eauto. Qed.
Lemma refused_runs : forall ranges s t, idle sys s t -> ~ unmap_fits ranges [] ->
  exists s' e, sync_wait_ends (coroutine (os_of sys tgt) (trim_at_once ranges)) s s' (Threw e) /\ idle sys s' t.
Proof.
  intros ranges s t Hi N. destruct (at_once_refused tgt (pads sys) ranges t N) as [e E].
  destruct (adaptive T sys tgt t _ t _ s F E Hi) as (s' & X & Y). exists s', e. split; [exact X|exact Y].
Qed.
End Runs.

(** * The sample *)

Lemma sample_is_thin : forall bs n page sense, conforming_sense sense -> thin_disk (sample_thin bs n page sense) (fun t => t) bs n page sense.
Proof.
  intros bs n page sense C. constructor.
  - exact C.
  - intros t cdb d alloc I. unfold sample_thin. rewrite I. eauto.
  - intros t cdb p g I L. unfold sample_thin. rewrite I. destruct (unmaps page n (unmap_descriptors p)).
    + eexists. split; [reflexivity|]. intros k K. reflexivity.
    + eexists. split; [reflexivity|]. intros k K. reflexivity.
  - intros t cdb data lba m g I _ _ _ _. unfold sample_thin. rewrite I. destruct (writes_same page n lba m).
    + eexists. split; [reflexivity|]. intros k K. reflexivity.
    + eexists. split; [reflexivity|]. intros k K. reflexivity.
Qed.
Lemma sample_tells : forall bs n page sense, reports_capacity (sample_thin bs n page sense) (fun t => t) bs n (zeros 20).
Proof.
  intros bs n page sense. constructor.
  - split; [reflexivity|apply zeros_ok].
  - intros t cdb d I. unfold sample_thin. rewrite I. eauto.
  - intros t cdb d alloc I. unfold sample_thin. rewrite I. eauto.
Qed.
