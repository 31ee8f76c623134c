(** Facts about SpecListing.v. *)
From Coq Require Import String ZArith List Bool Lia PeanoNat.
From Verif Require Import Base BaseFacts Gen SpecGen Executer OsCommon Instruct InstructFacts Command CdbPrimary CdbPropFacts CdbLemmas ResponseLemmas CdbResponseFacts
  SpecDevice SpecCdb CdbAllFacts SpecSg SpecDrivers SpecExecute SpecSense SpecPortable SpecReserve ReserveFacts SpecAdaptive AdaptiveFacts SpecAlua SpecListing.
Import ListNotations.
Local Open Scope string_scope.
Local Open Scope list_scope.
Local Open Scope Z_scope.

Lemma moment_succ : forall T (next : T -> T) k t, moment next (Datatypes.S k) t = next (moment next k t).
Proof. intros T next k. induction k as [|k IH]; intro t; [reflexivity|]. cbn [moment] in *. apply IH. Qed.
Lemma moment_add : forall T (next : T -> T) j k t, moment next j (moment next k t) = moment next (k + j) t.
Proof. intros T next j k. induction k as [|k IH]; intro t; [reflexivity|]. cbn [moment Nat.add]. apply IH. Qed.

(** * Generations *)
Lemma settled_same : forall st, generation (settled st) = generation st /\ registered (settled st) = registered st.
Proof. intro st. unfold settled. destruct (held st) as [[h ty]|]; [|split; reflexivity]. destruct (if all_registrants ty then _ else _); split; reflexivity. Qed.
(** Every action leaves generation and registrations alone, or counts. *)
Definition counted (st st' : pr_state) : Prop :=
  (generation st' = generation st /\ registered st' = registered st) \/ generation st' = next_generation (generation st).
Lemma counted_same : forall st, counted st st.
Proof. left. split; reflexivity. Qed.
Lemma counted_set : forall h new st, counted st (set_key h new st).
Proof. intros. right. unfold set_key. apply settled_same. Qed.
Lemma counted_with : forall h key st r, counted st (fst r) -> counted st (fst (with_key h key st r)).
Proof. intros h key st r C. unfold with_key. destruct (key_of h st) as [k|]; [|apply counted_same]. destruct (k =? key); [exact C|apply counted_same]. Qed.
Lemma step_counted : forall h a st, counted st (fst (pr_step h a st)).
Proof.
  intros h a st. destruct a as [key new|new|key ty|key ty|key|key victim ty]; cbn [pr_step].
  - destruct (key_of h st) as [k|].
    + destruct (k =? key); [apply counted_set|apply counted_same].
    + destruct (key =? 0); [|apply counted_same]. destruct (new =? 0); [apply counted_same|apply counted_set].
  - destruct (is_registered h st || negb (new =? 0)); [apply counted_set|apply counted_same].
  - apply counted_with. destruct (negb (valid_type ty)); [apply counted_same|]. destruct (held st) as [[h0 ty0]|]; [|left; split; reflexivity].
    destruct (holds h st && (ty0 =? ty)); apply counted_same.
  - apply counted_with. destruct (held st) as [[h0 ty0]|]; [|apply counted_same]. destruct (negb (holds h st)); [apply counted_same|].
    destruct (ty0 =? ty); [left; split; reflexivity|apply counted_same].
  - apply counted_with. right. reflexivity.
  - apply counted_with. unfold preempted. destruct (takes_over victim st).
    + destruct (negb (valid_type ty)); [apply counted_same|right; reflexivity].
    + destruct (victim =? 0); [apply counted_same|]. destruct (existsb _ _); [|apply counted_same]. right. cbn [fst].
      exact (proj1 (settled_same _)).
Qed.
Lemma after_counted : forall acts st, exists k, 0 <= k <= zlen acts /\ (k = 0 -> registered (after acts st) = registered st) /\
  (0 <= generation st < 2 ^ 32 -> generation (after acts st) = (generation st + k) mod 2 ^ 32).
Proof.
  induction acts as [|[h a] acts IH]; intro st; cbn [after].
  - exists 0. split; [unfold zlen; cbn; lia|]. split; [reflexivity|]. intro G. rewrite Z.add_0_r, Z.mod_small by exact G. reflexivity.
  - destruct (IH (fst (pr_step h a st))) as (k & K & R & G). destruct (step_counted h a st) as [[E F]|E].
    + exists k. split; [unfold zlen in *; cbn [length]; lia|]. rewrite E, F in *. auto.
    + exists (k + 1). split; [unfold zlen in *; cbn [length]; lia|]. split; [lia|]. intro G0.
      assert (N : 0 <= next_generation (generation st) < 2 ^ 32) by (unfold next_generation; apply Z.mod_pos_bound; lia).
      rewrite G by (rewrite E; exact N). rewrite E. unfold next_generation. rewrite Z.add_mod_idemp_l by lia. f_equal. lia.
Qed.
Lemma generation_tells : forall acts st, 0 <= generation st < 2 ^ 32 -> zlen acts < 2 ^ 32 ->
  generation (after acts st) = generation st -> registered (after acts st) = registered st.
Proof.
  intros acts st G L E. destruct (after_counted acts st) as (k & K & R & X). specialize (X G). rewrite E in X.
  apply R. destruct (Z.eq_dec k 0) as [|N]; [assumption|exfalso].
  destruct (Z.lt_ge_cases (generation st + k) (2 ^ 32)) as [Lt|Ge].
  - rewrite Z.mod_small in X by lia. lia.
  - replace (generation st + k) with (generation st + k - 2 ^ 32 + 1 * 2 ^ 32) in X by lia. rewrite Z.mod_add, Z.mod_small in X by lia. lia.
Qed.

(** After 2^32 registrations the generation is the same again. *)
Lemma registered_again : forall n g, 0 <= g < 2 ^ 32 ->
  after (repeat (0%nat, RegisterIgnore 9) n) (PrState g [(0%nat, 9)] None) = PrState ((g + Z.of_nat n) mod 2 ^ 32) [(0%nat, 9)] None.
Proof.
  induction n as [|n IH]; intros g G; cbn [repeat after].
  - rewrite Z.add_0_r, Z.mod_small by exact G. reflexivity.
  - change (fst (pr_step 0 (RegisterIgnore 9) (PrState g [(0%nat, 9)] None))) with (PrState (next_generation g) [(0%nat, 9)] None).
    rewrite IH by (unfold next_generation; apply Z.mod_pos_bound; lia). unfold next_generation. rewrite Z.add_mod_idemp_l by lia. do 2 f_equal. lia.
Qed.
Lemma wraps : forall n g, 0 <= g < 2 ^ 32 -> Z.of_nat n = 2 ^ 32 ->
  after (repeat (0%nat, RegisterIgnore 9) n) (PrState g [] None) = PrState g [(0%nat, 9)] None.
Proof.
  intros [|n] g G N; [discriminate N|]. cbn [repeat after].
  change (fst (pr_step 0 (RegisterIgnore 9) (PrState g [] None))) with (PrState (next_generation g) [(0%nat, 9)] None).
  rewrite registered_again by (unfold next_generation; apply Z.mod_pos_bound; lia). f_equal. unfold next_generation. rewrite Z.add_mod_idemp_l by lia.
  replace (g + 1 + Z.of_nat n) with (g + 1 * 2 ^ 32) by lia. rewrite Z.mod_add by lia. apply Z.mod_small. exact G.
Qed.

(** * Holders are registered *)
Lemma consistent_settled : forall st, consistent (settled st).
Proof.
  intro st. unfold settled. destruct (held st) as [[h ty]|] eqn:E; [|unfold consistent; rewrite E; exact Logic.I].
  destruct (all_registrants ty) eqn:A.
  - destruct (registered st) eqn:R; [exact Logic.I|]. unfold consistent. rewrite E, A, R. discriminate.
  - destruct (is_registered h st) eqn:R; cbn [negb]; [|exact Logic.I]. unfold consistent. rewrite E, A. exact R.
Qed.
Lemma find_filter : forall (h : nat) (f : nat * Z -> bool) l, (forall p, fst p = h -> f p = true) ->
  find (fun p => Nat.eqb (fst p) h) (filter f l) = find (fun p => Nat.eqb (fst p) h) l.
Proof.
  intros h f l F. induction l as [|p l IH]; [reflexivity|]. cbn [filter find]. destruct (Nat.eqb (fst p) h) eqn:E.
  - rewrite F by (apply Nat.eqb_eq; exact E). cbn [find]. rewrite E. reflexivity.
  - destruct (f p); [cbn [find]; rewrite E|]; exact IH.
Qed.
Lemma registered_some : forall h st, is_registered h st = true -> registered st <> [].
Proof. intros h st R E. unfold is_registered, key_of in R. rewrite E in R. discriminate R. Qed.
Lemma with_key_consistent : forall h key st r, consistent st -> (is_registered h st = true -> consistent (fst r)) -> consistent (fst (with_key h key st r)).
Proof.
  intros h key st r C D. unfold with_key. destruct (key_of h st) as [k|] eqn:E; [|exact C]. destruct (k =? key); [|exact C].
  apply D. unfold is_registered. rewrite E. reflexivity.
Qed.
Lemma step_consistent : forall h a st, consistent st -> consistent (fst (pr_step h a st)).
Proof.
  intros h a st C. destruct a as [key new|new|key ty|key ty|key|key victim ty]; cbn [pr_step].
  - destruct (key_of h st) as [k|].
    + destruct (k =? key); [apply consistent_settled|exact C].
    + destruct (key =? 0); [|exact C]. destruct (new =? 0); [exact C|apply consistent_settled].
  - destruct (is_registered h st || negb (new =? 0)); [apply consistent_settled|exact C].
  - apply with_key_consistent; [exact C|]. intro R. destruct (negb (valid_type ty)); [exact C|]. destruct (held st) as [[h0 ty0]|].
    + destruct (holds h st && (ty0 =? ty)); exact C.
    + unfold consistent. cbn [fst held registered]. destruct (all_registrants ty); [eapply registered_some; exact R|exact R].
  - apply with_key_consistent; [exact C|]. intro R. destruct (held st) as [[h0 ty0]|]; [|exact C]. destruct (negb (holds h st)); [exact C|].
    destruct (ty0 =? ty); [exact Logic.I|exact C].
  - apply with_key_consistent; [exact C|]. intros _. exact Logic.I.
  - apply with_key_consistent; [exact C|]. intro R. unfold preempted. destruct (takes_over victim st).
    + destruct (negb (valid_type ty)); [exact C|]. unfold consistent. cbn [fst held registered].
      assert (X : is_registered h (PrState (next_generation (generation st))
        (filter (fun p => Nat.eqb (fst p) h || negb ((victim =? 0) || (snd p =? victim))) (registered st)) (Some (h, ty))) = true).
      { unfold is_registered, key_of in *. cbn [registered]. rewrite find_filter; [exact R|]. intros p Hp. rewrite Hp, Nat.eqb_refl. reflexivity. }
      destruct (all_registrants ty); [|exact X]. apply registered_some in X. exact X.
    + destruct (victim =? 0); [exact C|]. destruct (existsb _ _); [apply consistent_settled|exact C].
Qed.
Lemma after_consistent : forall acts st, consistent st -> consistent (after acts st).
Proof. induction acts as [|[h a] acts IH]; intros st C; [exact C|]. cbn [after]. apply IH, step_consistent, C. Qed.
Lemma holder_listed : forall st h ty, consistent st -> held st = Some (h, ty) -> all_registrants ty = false ->
  In (reservation_key st) (map snd (registered st)) /\ key_of h st = Some (reservation_key st).
Proof.
  intros st h ty C H A. unfold consistent in C. unfold reservation_key. rewrite H, A in *. unfold is_registered in C.
  destruct (key_of h st) as [k|] eqn:E; [|discriminate C]. split; [|reflexivity]. unfold key_of in E.
  destruct (find _ (registered st)) as [p|] eqn:F; [|discriminate E]. cbn in E. injection E as <-. apply in_map. eapply find_some. exact F.
Qed.

(** * The programs *)
Section Programs.
Context {T : Type} (tgt : target T) (view : T -> pr_state) (between : T -> list (nat * pr_action)) (next : T -> T) (Dev : watched tgt view between next).
Context (padded : bool).

Lemma shown_keys : forall st alloc, keys_object (generation st) (zlen (map snd (registered st)))
    (if 8 + 8 * zlen (map snd (registered st)) <=? alloc then PList (map PInt (map snd (registered st))) else PNone)
  = if room st <=? alloc then whole_keys st else no_keys st.
Proof.
  intros st alloc. unfold room, whole_keys, no_keys. assert (L : zlen (map snd (registered st)) = zlen (registered st)) by (unfold zlen; rewrite map_length; reflexivity).
  rewrite L, map_map. destruct (_ <=? alloc); reflexivity.
Qed.
Lemma room_least : forall st, 8 <= room st.
Proof. intro st. unfold room, zlen. lia. Qed.
(** One READ KEYS. *)
Lemma keys_step : forall t alloc nxt t' r, 8 <= alloc < 2 ^ 16 ->
  does tgt padded (next t) (nxt (Ok (if room (view t) <=? alloc then whole_keys (view t) else no_keys (view t)))) t' r ->
  does tgt padded t (Do (PrIn 0 alloc) nxt) t' r.
Proof.
  intros t alloc nxt t' r A D. destruct (w_ok _ _ _ _ Dev t) as [(G & _ & K & _) N].
  destruct (pr_in_issued 0 alloc ltac:(lia) A) as (cdb & J & X).
  eapply does_seen; [exact Logic.I|exact J|cbn [moderate]; lia|exact (w_keys _ _ _ _ Dev t _ _ _ X)|apply ordinary_good| |exact D].
  destruct (keys_seen padded (generation (view t)) (map snd (registered (view t))) cdb alloc) as [V _]; [exact G| | |lia|].
  - apply Forall_map. exact K.
  - unfold zlen in *. rewrite map_length. exact N.
  - rewrite V, shown_keys. reflexivity.
Qed.
Lemma required_room : forall st alloc, required_allocation_length (if room st <=? alloc then whole_keys st else no_keys st) = Ok (room st).
Proof.
  intros st alloc. unfold whole_keys, no_keys, keys_object.
  destruct (room st <=? alloc); unfold required_allocation_length, room; cbn [String.eqb Ascii.eqb Bool.eqb];
    change (Ok (8 * zlen (registered st) + 8) = Ok (8 + 8 * zlen (registered st))); f_equal; lia.
Qed.
Lemma reservation_step : forall t nxt t' r, does tgt padded (next t) (nxt (Ok (reservation_object padded (view t)))) t' r ->
  does tgt padded t (Do (PrIn 1 24) nxt) t' r.
Proof.
  intros t nxt t' r D. destruct (w_ok _ _ _ _ Dev t) as [P _].
  destruct (pr_in_issued 1 24 ltac:(lia) ltac:(lia)) as (cdb & J & X).
  eapply does_seen; [exact Logic.I|exact J|cbn [moderate]; lia|exact (w_reservation _ _ _ _ Dev t _ _ _ X)|apply ordinary_good| |exact D].
  rewrite seen_nice. apply reservation_result; [exact P|lia].
Qed.

Lemma fetch_does : forall first t, 8 <= first < 2 ^ 16 ->
  (room (view t) <= first -> does tgt padded t (fetch_pr 0 first) (next t) (Ok (whole_keys (view t)))) /\
  (first < room (view t) < 2 ^ 16 -> does tgt padded t (fetch_pr 0 first) (next (next t))
     (Ok (if room (view (next t)) <=? room (view t) then whole_keys (view (next t)) else no_keys (view (next t))))).
Proof.
  intros first t F. split; intro R; unfold fetch_pr; apply keys_step; auto; rewrite required_room.
  - replace (room (view t) <=? first) with true by (symmetry; apply Z.leb_le; lia). constructor.
  - replace (room (view t) <=? first) with false by (symmetry; apply Z.leb_gt; lia). apply keys_step; [pose proof (room_least (view t)); lia|]. constructor.
Qed.

Lemma list_does : forall e n i first t, 8 <= first < 2 ^ 16 -> (i < n)%nat ->
  (forall j, (j < i)%nat -> asked view next first t j < room (view (moment next j t)) < 2 ^ 16) ->
  room (view (moment next i t)) <= asked view next first t i ->
  does tgt padded t (list_keys e n first) (moment next (Datatypes.S i) t) (Ok (whole_keys (view (moment next i t)))).
Proof.
  intros e n. induction n as [|n IH]; intros i first t F L B W; [lia|]. cbn [list_keys]. apply keys_step; [exact F|]. rewrite required_room.
  destruct i as [|i].
  - cbn [asked moment] in W. replace (room (view t) <=? first) with true by (symmetry; apply Z.leb_le; lia). constructor.
  - pose proof (B 0%nat ltac:(lia)) as B0. cbn [asked moment] in B0. replace (room (view t) <=? first) with false by (symmetry; apply Z.leb_gt; lia).
    assert (A : forall j, asked view next (room (view t)) (next t) j = asked view next first t (Datatypes.S j)) by (intros [|j]; reflexivity).
    cbn [moment]. apply IH; [pose proof (room_least (view t)); lia|lia| |rewrite A; exact W].
    intros j Hj. rewrite A. apply (B (Datatypes.S j)). lia.
Qed.
Lemma list_fails : forall e n first t, 8 <= first < 2 ^ 16 ->
  (forall j, (j < n)%nat -> asked view next first t j < room (view (moment next j t)) < 2 ^ 16) ->
  does tgt padded t (list_keys e n first) (moment next n t) (Err e).
Proof.
  intros e n. induction n as [|n IH]; intros first t F B; [constructor|]. cbn [list_keys]. apply keys_step; [exact F|]. rewrite required_room.
  pose proof (B 0%nat ltac:(lia)) as B0. cbn [asked moment] in B0. replace (room (view t) <=? first) with false by (symmetry; apply Z.leb_gt; lia).
  cbn [moment]. apply IH; [pose proof (room_least (view t)); lia|]. intros j Hj.
  assert (A : asked view next (room (view t)) (next t) j = asked view next first t (Datatypes.S j)) by (destruct j; reflexivity).
  rewrite A. apply (B (Datatypes.S j)). lia.
Qed.
Lemma list_too_many : forall e n i first t, 8 <= first < 2 ^ 16 -> (Datatypes.S i < n)%nat ->
  (forall j, (j < i)%nat -> asked view next first t j < room (view (moment next j t)) < 2 ^ 16) ->
  2 ^ 16 <= room (view (moment next i t)) ->
  exists x, does tgt padded t (list_keys e n first) (moment next (Datatypes.S i) t) (Err x).
Proof.
  intros e n. induction n as [|n IH]; intros i first t F L B W; [lia|]. cbn [list_keys].
  destruct i as [|i].
  - cbn [moment] in *. destruct (pr_in_too_long 0 _ W) as (x & X). exists x. apply keys_step; [exact F|]. rewrite required_room.
    replace (room (view t) <=? first) with false by (symmetry; apply Z.leb_gt; lia). destruct n as [|n]; [lia|]. cbn [list_keys].
    eapply does_refused; [exact X|constructor].
  - pose proof (B 0%nat ltac:(lia)) as B0. cbn [asked moment] in B0.
    assert (A : forall j, asked view next (room (view t)) (next t) j = asked view next first t (Datatypes.S j)) by (intros [|j]; reflexivity).
    destruct (IH i (room (view t)) (next t)) as (x & X); [pose proof (room_least (view t)); lia|lia| |exact W|].
    { intros j Hj. rewrite A. apply (B (Datatypes.S j)). lia. }
    exists x. apply keys_step; [exact F|]. rewrite required_room. replace (room (view t) <=? first) with false by (symmetry; apply Z.leb_gt; lia). exact X.
Qed.
(** Every attempt that fails saw more keys than the one before. *)
Lemma grows : forall first t j, 8 <= first -> (forall k, (k <= j)%nat -> asked view next first t k < room (view (moment next k t))) ->
  Z.of_nat j < zlen (registered (view (moment next j t))).
Proof.
  intros first t j F. induction j as [|j IH]; intro B.
  - specialize (B 0%nat ltac:(lia)). cbn [asked moment] in *. unfold room in B. lia.
  - pose proof (B (Datatypes.S j) ltac:(lia)) as X. cbn [asked] in X. assert (Y := IH ltac:(intros k Hk; apply B; lia)). unfold room in X. lia.
Qed.
Lemma first_fit : forall first t n, (exists i, (i < n)%nat /\ room (view (moment next i t)) <= asked view next first t i /\
    forall j, (j < i)%nat -> asked view next first t j < room (view (moment next j t))) \/
  forall j, (j < n)%nat -> asked view next first t j < room (view (moment next j t)).
Proof.
  intros first t n. induction n as [|n [(i & L & W & B)|B]].
  - right. lia.
  - left. exists i. split; [lia|]. split; assumption.
  - destruct (Z.lt_ge_cases (asked view next first t n) (room (view (moment next n t)))) as [X|X].
    + right. intros j Hj. destruct (Nat.eq_dec j n) as [->|]; [exact X|apply B; lia].
    + left. exists n. split; [lia|]. split; [exact X|exact B].
Qed.
Lemma list_always : forall e n most first t, 8 <= first < 2 ^ 16 -> most <= 8190 -> (forall k, zlen (registered (view (moment next k t))) <= most) ->
  most < Z.of_nat n -> exists i, (i < n)%nat /\
  does tgt padded t (list_keys e n first) (moment next (Datatypes.S i) t) (Ok (whole_keys (view (moment next i t)))).
Proof.
  intros e n most first t F M K N. destruct (first_fit first t n) as [(i & L & W & B)|B].
  - exists i. split; [exact L|]. apply list_does; auto. intros j Hj. split; [apply B; exact Hj|]. specialize (K j). unfold room. lia.
  - exfalso. destruct n as [|n]; [pose proof (K 0%nat); unfold zlen in *; lia|].
    pose proof (grows first t n ltac:(lia) ltac:(intros k Hk; apply B; lia)) as G. specialize (K n). lia.
Qed.

Lemma both_does : forall t, does tgt padded t keys_and_reservation (next (next t))
  (Ok (PList [if room (view t) <=? 65535 then whole_keys (view t) else no_keys (view t); reservation_object padded (view (next t))])).
Proof. intro t. unfold keys_and_reservation. apply keys_step; [lia|]. apply reservation_step. constructor. Qed.
Lemma generations_compared : forall st st' alloc,
  same_pr_generation (if room st <=? alloc then whole_keys st else no_keys st) (reservation_object padded st') = (generation st =? generation st').
Proof. intros st st' alloc. destruct (room st <=? alloc); reflexivity. Qed.
Lemma snapshot_does : forall e n i t, (i < n)%nat ->
  (forall j, (j < i)%nat -> generation (view (moment next (2 * j + 1) t)) <> generation (view (moment next (2 * j) t))) ->
  generation (view (moment next (2 * i + 1) t)) = generation (view (moment next (2 * i) t)) ->
  does tgt padded t (snapshot e n) (moment next (2 * i + 2) t)
    (Ok (PList [if room (view (moment next (2 * i) t)) <=? 65535 then whole_keys (view (moment next (2 * i) t)) else no_keys (view (moment next (2 * i) t));
                reservation_object padded (view (moment next (2 * i + 1) t))])).
Proof.
  intros e n. induction n as [|n IH]; intros i t L B W; [lia|]. cbn [snapshot]. eapply does_call; [apply both_does|]. cbv beta iota. rewrite generations_compared.
  destruct i as [|i].
  - cbn [Nat.mul Nat.add moment] in *. replace (_ =? _) with true by (symmetry; apply Z.eqb_eq; auto). constructor.
  - pose proof (B 0%nat ltac:(lia)) as B0. cbn [Nat.mul Nat.add moment] in B0. replace (generation (view t) =? _) with false by (symmetry; apply Z.eqb_neq; auto).
    replace (2 * Datatypes.S i)%nat with (Datatypes.S (Datatypes.S (2 * i))) by lia. cbn [Nat.add moment].
    apply IH; [lia| |].
    + intros j Hj. specialize (B (Datatypes.S j) ltac:(lia)). replace (2 * Datatypes.S j)%nat with (Datatypes.S (Datatypes.S (2 * j))) in B by lia. exact B.
    + replace (2 * Datatypes.S i)%nat with (Datatypes.S (Datatypes.S (2 * i))) in W by lia. exact W.
Qed.
Lemma snapshot_fails : forall e n t,
  (forall j, (j < n)%nat -> generation (view (moment next (2 * j + 1) t)) <> generation (view (moment next (2 * j) t))) ->
  does tgt padded t (snapshot e n) (moment next (2 * n) t) (Err e).
Proof.
  intros e n. induction n as [|n IH]; intros t B; [constructor|]. cbn [snapshot]. eapply does_call; [apply both_does|]. cbv beta iota. rewrite generations_compared.
  pose proof (B 0%nat ltac:(lia)) as B0. cbn [Nat.mul Nat.add moment] in B0. replace (generation (view t) =? _) with false by (symmetry; apply Z.eqb_neq; auto).
  replace (2 * Datatypes.S n)%nat with (Datatypes.S (Datatypes.S (2 * n))) by lia. cbn [moment].
  apply IH. intros j Hj. specialize (B (Datatypes.S j) ltac:(lia)). replace (2 * Datatypes.S j)%nat with (Datatypes.S (Datatypes.S (2 * j))) in B by lia. exact B.
Qed.
(** Both of one moment. *)
Lemma snapshot_one : forall e n i t, (forall t, zlen (between t) < 2 ^ 32) -> (i < n)%nat ->
  (forall j, (j < i)%nat -> generation (view (moment next (2 * j + 1) t)) <> generation (view (moment next (2 * j) t))) ->
  generation (view (moment next (2 * i + 1) t)) = generation (view (moment next (2 * i) t)) ->
  zlen (registered (view (moment next (2 * i) t))) <= 8190 ->
  does tgt padded t (snapshot e n) (moment next (2 * i + 2) t)
    (Ok (PList [whole_keys (view (moment next (2 * i + 1) t)); reservation_object padded (view (moment next (2 * i + 1) t))])).
Proof.
  intros e n i t F L B W R. pose proof (snapshot_does e n i t L B W) as D.
  replace (room (view (moment next (2 * i) t)) <=? 65535) with true in D by (symmetry; apply Z.leb_le; unfold room; lia).
  replace (whole_keys (view (moment next (2 * i + 1) t))) with (whole_keys (view (moment next (2 * i) t))); [exact D|].
  assert (E : view (moment next (2 * i + 1) t) = after (between (moment next (2 * i) t)) (view (moment next (2 * i) t))).
  { replace (2 * i + 1)%nat with (Datatypes.S (2 * i)) by lia. rewrite moment_succ. apply (w_next _ _ _ _ Dev). }
  unfold whole_keys. rewrite W. f_equal; rewrite E in *; rewrite (generation_tells _ _ (proj1 (proj1 (w_ok _ _ _ _ Dev _))) (F _) W); reflexivity.
Qed.
End Programs.

(** * Logical units *)
Section Luns.
Context {T : Type} (tgt : target T) (luns : T -> list Z) (next : T -> T) (Dev : lists_luns tgt luns next) (padded : bool).

Lemma luns_does : forall select t, 0 <= select < 2 ^ 8 ->
  does tgt padded t (fetch_luns select true) (next (next t))
    (if zlen (luns (next t)) <=? Z.max 1 (zlen (luns t)) then Ok (all_luns_shown (luns (next t))) else Err EInstruct).
Proof.
  intros select t S. unfold fetch_luns. destruct (ll_range _ _ _ Dev t) as [_ C]. destruct (ll_range _ _ _ Dev (next t)) as [K' C'].
  destruct (luns_issued select 8 true S ltac:(lia)) as (cdb & J & X).
  destruct (luns_length_seen padded select true (luns t) cdb ltac:(unfold zlen in *; lia)) as [V Q].
  set (n := Z.max 16 (8 + 8 * zlen (luns t))).
  destruct (luns_issued select n true S ltac:(subst n; unfold zlen in *; lia)) as (cdb2 & J2 & X2).
  eapply does_command; [exact Logic.I|exact J|cbn [moderate]; lia|exact (ll_answer _ _ _ Dev t _ _ _ _ X)|apply ordinary_good|].
  rewrite V, Q. fold n.
  eapply does_command; [exact Logic.I|exact J2|cbn [moderate]; subst n; unfold zlen in *; lia|exact (ll_answer _ _ _ Dev (next t) _ _ _ _ X2)|apply ordinary_good|].
  destruct (Z.leb_spec (zlen (luns (next t))) (Z.max 1 (zlen (luns t)))) as [Le|Gt].
  - destruct (luns_seen padded select n true (luns (next t)) cdb2) as (rest & ->); [subst n; lia|subst n; lia|].
    rewrite report_luns_allowed; [constructor|subst n; lia|exact K'|unfold zlen in *; lia].
  - pose proof (luns_data_length (luns (next t))) as L.
    rewrite seen_nice. destruct (got_data padded cdb2 n (luns_data (luns (next t)))) as (m & -> & Hm); [subst n; lia|unfold zlen in *; lia|].
    replace (firstn (Z.to_nat n) (luns_data (luns (next t)) ++ zeros m)) with (firstn (Z.to_nat n) (luns_data (luns (next t)))).
    2:{ rewrite firstn_app. replace (Z.to_nat n - length (luns_data (luns (next t))))%nat with 0%nat by (subst n; unfold zlen in *; lia).
        rewrite firstn_O, app_nil_r. reflexivity. }
    cbn [constructed]. rewrite report_luns_cut; [constructor|subst n; lia|unfold zlen in *; lia|subst n; unfold zlen in *; lia].
Qed.
Lemma list_luns_does : forall e n i select t, 0 <= select < 2 ^ 8 -> (i < n)%nat ->
  (forall j, (j < i)%nat -> Z.max 1 (zlen (luns (moment next (2 * j) t))) < zlen (luns (moment next (2 * j + 1) t))) ->
  zlen (luns (moment next (2 * i + 1) t)) <= Z.max 1 (zlen (luns (moment next (2 * i) t))) ->
  does tgt padded t (list_luns e n select) (moment next (2 * i + 2) t) (Ok (all_luns_shown (luns (moment next (2 * i + 1) t)))).
Proof.
  intros e n. induction n as [|n IH]; intros i select t S L B W; [lia|]. cbn [list_luns]. eapply does_call; [apply luns_does; exact S|]. cbv beta.
  destruct i as [|i].
  - cbn [Nat.mul Nat.add moment] in *. replace (_ <=? _) with true by (symmetry; apply Z.leb_le; auto). constructor.
  - pose proof (B 0%nat ltac:(lia)) as B0. cbn [Nat.mul Nat.add moment] in B0. replace (zlen (luns (next t)) <=? _) with false by (symmetry; apply Z.leb_gt; auto).
    replace (2 * Datatypes.S i)%nat with (Datatypes.S (Datatypes.S (2 * i))) in * by lia. cbn [Nat.add moment] in *.
    apply IH; [exact S|lia| |exact W].
    intros j Hj. specialize (B (Datatypes.S j) ltac:(lia)). replace (2 * Datatypes.S j)%nat with (Datatypes.S (Datatypes.S (2 * j))) in B by lia. exact B.
Qed.
Lemma list_luns_fails : forall e n select t, 0 <= select < 2 ^ 8 ->
  (forall j, (j < n)%nat -> Z.max 1 (zlen (luns (moment next (2 * j) t))) < zlen (luns (moment next (2 * j + 1) t))) ->
  does tgt padded t (list_luns e n select) (moment next (2 * n) t) (Err e).
Proof.
  intros e n. induction n as [|n IH]; intros select t S B; [constructor|]. cbn [list_luns]. eapply does_call; [apply luns_does; exact S|]. cbv beta.
  pose proof (B 0%nat ltac:(lia)) as B0. cbn [Nat.mul Nat.add moment] in B0. replace (zlen (luns (next t)) <=? _) with false by (symmetry; apply Z.leb_gt; auto).
  replace (2 * Datatypes.S n)%nat with (Datatypes.S (Datatypes.S (2 * n))) by lia. cbn [moment].
  apply IH; [exact S|].
  intros j Hj. specialize (B (Datatypes.S j) ltac:(lia)). replace (2 * Datatypes.S j)%nat with (Datatypes.S (Datatypes.S (2 * j))) in B by lia. exact B.
Qed.
End Luns.

(** * On the four systems *)
Section Four.
Context (T : Type) (tgt : target T) (view : T -> pr_state) (between : T -> list (nat * pr_action)) (next : T -> T) (Dev : watched tgt view between next).
Context (sys : system T) (F : one_of_four sys).

Lemma run : forall t p t' r s, idle sys s t -> does tgt (pads sys) t p t' r ->
  exists s', sync_wait_ends (coroutine (os_of sys tgt) p) s s' (shown r) /\ idle sys s' t'.
Proof. intros t p t' r s Hi D. eapply adaptive; eauto. Qed.
End Four.
