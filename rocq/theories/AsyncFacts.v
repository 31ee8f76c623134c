(** Proofs about the asynchronous reactor. *)
From Coq Require Import ZArith List Bool Lia.
From Verif Require Import Base Gen SpecGen GenFacts SpecAsync.
Import ListNotations.

Section ListFacts.
Context {A : Type}.

Lemma set_nth_length : forall i (x : A) l, length (set_nth i x l) = length l.
Proof. induction i; destruct l; simpl; auto. Qed.

Lemma set_nth_same : forall i (x : A) l, nth_error l i = Some x -> set_nth i x l = l.
Proof. induction i; destruct l; simpl; intros; try discriminate. congruence. f_equal; auto. Qed.

Lemma set_nth_twice : forall i (x y : A) l, set_nth i x (set_nth i y l) = set_nth i x l.
Proof. induction i; destruct l; simpl; auto. f_equal; auto. Qed.

Lemma nth_set_eq : forall i (x : A) l, (i < length l)%nat -> nth_error (set_nth i x l) i = Some x.
Proof. induction i; destruct l; simpl; intros; auto; try lia. apply IHi; lia. Qed.

Lemma nth_set_neq : forall i j (x : A) l, i <> j -> nth_error (set_nth i x l) j = nth_error l j.
Proof. induction i; destruct l; destruct j; simpl; intros; auto; try congruence. Qed.

Lemma nth_some_lt : forall i (x : A) l, nth_error l i = Some x -> (i < length l)%nat.
Proof. intros. apply nth_error_Some. congruence. Qed.

Lemma lookup_remove_eq : forall k (l : list (nat * A)), lookup_key k (remove_key k l) = None.
Proof.
  unfold lookup_key, remove_key. induction l; simpl; auto.
  destruct (Nat.eqb (fst a) k) eqn:E; simpl; auto. rewrite E; auto.
Qed.

Lemma lookup_remove_neq : forall k j (l : list (nat * A)), j <> k ->
  lookup_key j (remove_key k l) = lookup_key j l.
Proof.
  unfold lookup_key, remove_key. induction l; simpl; auto; intros.
  destruct (Nat.eqb (fst a) k) eqn:E; simpl.
  - apply Nat.eqb_eq in E. destruct (Nat.eqb_spec (fst a) j); [congruence|]. auto.
  - destruct (Nat.eqb (fst a) j); simpl; auto.
Qed.

Lemma lookup_update_eq : forall k v (l : list (nat * A)) w,
  lookup_key k l = Some w -> lookup_key k (update_key k v l) = Some v.
Proof.
  unfold lookup_key, update_key. induction l; simpl; intros; try discriminate.
  destruct (Nat.eqb (fst a) k) eqn:E; simpl.
  - rewrite Nat.eqb_refl. reflexivity.
  - rewrite E. eauto.
Qed.

Lemma lookup_update_neq : forall k j v (l : list (nat * A)), j <> k ->
  lookup_key j (update_key k v l) = lookup_key j l.
Proof.
  unfold lookup_key, update_key. induction l; simpl; intros; auto.
  destruct (Nat.eqb (fst a) k) eqn:E; simpl.
  - apply Nat.eqb_eq in E. rewrite E.
    destruct (Nat.eqb_spec k j); [congruence|]. auto.
  - destruct (Nat.eqb (fst a) j); simpl; auto.
Qed.

Lemma keys_update : forall k v (l : list (nat * A)), map fst (update_key k v l) = map fst l.
Proof.
  unfold update_key. intros. rewrite map_map. apply map_ext_in. intros [a b] _; simpl.
  destruct (Nat.eqb_spec a k); auto.
Qed.

Lemma lookup_in_keys : forall k (l : list (nat * A)), In k (map fst l) ->
  exists v, lookup_key k l = Some v.
Proof.
  unfold lookup_key. induction l; simpl; intros; [contradiction|].
  destruct (Nat.eqb_spec (fst a) k).
  - simpl; eauto.
  - destruct H; [contradiction|]. auto.
Qed.

Lemma lookup_keys_in : forall k v (l : list (nat * A)), lookup_key k l = Some v ->
  In k (map fst l).
Proof.
  unfold lookup_key. induction l; simpl; intros; [discriminate|].
  destruct (Nat.eqb_spec (fst a) k); auto.
Qed.

Lemma keys_remove_in : forall k j (l : list (nat * A)),
  In j (map fst (remove_key k l)) <-> In j (map fst l) /\ j <> k.
Proof.
  unfold remove_key. induction l; simpl; [tauto|].
  destruct (Nat.eqb_spec (fst a) k); simpl; rewrite ?IHl; split; intros; intuition congruence.
Qed.

Lemma lookup_app_none : forall k (l1 l2 : list (nat * A)), lookup_key k l1 = None ->
  lookup_key k (l1 ++ l2) = lookup_key k l2.
Proof.
  unfold lookup_key. induction l1; simpl; intros; auto.
  destruct (Nat.eqb (fst a) k); simpl in *; try discriminate. auto.
Qed.

Lemma lookup_app_some : forall k v (l1 l2 : list (nat * A)), lookup_key k l1 = Some v ->
  lookup_key k (l1 ++ l2) = Some v.
Proof.
  unfold lookup_key. induction l1; simpl; intros; [discriminate|].
  destruct (Nat.eqb (fst a) k); simpl in *; auto.
Qed.

End ListFacts.

Section Facts.
Context {S D : Type}.

(** The first [n] steps with blocking tokens: no token fails. *)
Fixpoint smooth (n : nat) (c : cor S D) (s : S) : Prop :=
  match n, stack c with
  | Datatypes.S n', g :: rest =>
    match resume g (input_of (args c)) s with
    | (s1, Stop) => smooth n' (Cor rest (args c) (cres c)) s1
    | (s1, Raise e) => match rest with [] => True | _ => smooth n' (Cor rest (VExn e) (cres c)) s1 end
    | (s1, Yield (YGen ch) k) => smooth n' (Cor (ch :: k :: rest) VNone (RGen ch)) s1
    | (s1, Yield (YVal v) k) => smooth n' (Cor (k :: rest) v (RVal v)) s1
    | (s1, Yield (YTok t) k) =>
      match t s1 with
      | (s2, Ok v) => smooth n' (Cor (k :: rest) v (RTok t)) s2
      | (_, Err _) => False
      end
    end
  | _, _ => True
  end.
Definition tok_ok (c : cor S D) (s : S) : Prop := forall n, smooth n c s.

(** The end of a loop that shows as [o] to the caller. *)
Definition loop_end (o : outcome S D) : @loop_out S D :=
  match o with Returned r => Finished r | Threw e => Raised e end.

(** One uninterrupted stretch of an asynchronous run. *)
Lemma segment : forall n (c : cor S D) s s' o, tok_ok c s ->
  loop true n c s = Some (s', loop_end o) ->
  loop false n c s = Some (s', loop_end o) \/
  exists c1 s1 t s2 v n', loop false n c s = Some (s1, Blocked c1) /\ cres c1 = RTok t /\
    t s1 = (s2, Ok v) /\ (n' < n)%nat /\ tok_ok (Cor (stack c1) v (RTok t)) s2 /\
    loop true n' (Cor (stack c1) v (RTok t)) s2 = Some (s', loop_end o).
Proof.
  induction n; intros c s s' o Hok Hl.
  - simpl in *. destruct (stack c); [|discriminate]. left; auto.
  - destruct c as [[|g rest] a r0]; [left; exact Hl|].
    rewrite step_eq in *. unfold next_step in *; simpl in *.
    assert (Hs : forall m, smooth (Datatypes.S m) (Cor (g :: rest) a r0) s) by (intro; apply Hok). simpl in Hs.
    destruct (resume g (input_of a) s) as [s1 ev] eqn:E. destruct ev as [|e|y k].
    + apply IHn in Hl; [|exact Hs]. destruct Hl as [Hl|[c1 [s2 [t [s3 [v [n' H]]]]]]]; auto.
      right. exists c1, s2, t, s3, v, n'. intuition.
    + unfold unwind in *. destruct rest; [left; exact Hl|].
      apply IHn in Hl; [|exact Hs]. destruct Hl as [Hl|[c1 [s2 [t [s3 [v [n' H]]]]]]]; auto.
      right. exists c1, s2, t, s3, v, n'. intuition.
    + destruct y as [v0|ch|t0].
      * apply IHn in Hl; [|exact Hs].
        destruct Hl as [Hl|[c1 [s2 [t [s3 [v [n' H]]]]]]]; auto.
        right. exists c1, s2, t, s3, v, n'. intuition.
      * apply IHn in Hl; [|exact Hs].
        destruct Hl as [Hl|[c1 [s2 [t [s3 [v [n' H]]]]]]]; auto.
        right. exists c1, s2, t, s3, v, n'. intuition.
      * destruct (t0 s1) as [s2 [v|e]] eqn:Et; [|destruct (Hs O)].
        right. exists (Cor (k :: rest) VNone (RTok t0)), s1, t0, s2, v, n.
        simpl. repeat split; auto.
Qed.

(** Lifting a coroutine to the list of states. *)
Definition cor_at (i : nat) (c : cor S D) : cor (list S) D :=
  Cor (map (gen_at i) (stack c)) (args c) (res_at i (cres c)).

Definition loop_out_at (i : nat) (o : @loop_out S D) : @loop_out (list S) D :=
  match o with
  | Finished r => Finished (res_at i r)
  | Blocked c => Blocked (cor_at i c)
  | Raised e => Raised e
  end.

Lemma loop_at : forall n i (c : cor S D) st s,
  nth_error st i = Some s ->
  loop false n (cor_at i c) st =
  match loop false n c s with
  | None => None
  | Some (s1, o) => Some (set_nth i s1 st, loop_out_at i o)
  end.
Proof.
  induction n; intros i c st s Hn.
  - simpl. destruct (stack c); simpl; auto. rewrite (set_nth_same i s st Hn). auto.
  - destruct c as [[|g rest] a r]; simpl.
    { rewrite (set_nth_same i s st Hn). auto. }
    unfold next_step; simpl. rewrite Hn.
    pose proof (nth_some_lt _ _ _ Hn) as Hlt.
    destruct (resume g (input_of a) s) as [s1 ev] eqn:E.
    assert (Hn1 : nth_error (set_nth i s1 st) i = Some s1) by (apply nth_set_eq; auto).
    assert (Hrec : forall c', loop false n (cor_at i c') (set_nth i s1 st) =
       match loop false n c' s1 with
       | None => None
       | Some (s2, o) => Some (set_nth i s2 st, loop_out_at i o)
       end).
    { intros c'. rewrite (IHn i c' _ _ Hn1). destruct (loop false n c' s1) as [[s2 o]|]; auto.
      rewrite set_nth_twice. auto. }
    destruct ev as [|e|y k].
    + apply (Hrec (Cor rest a r)).
    + unfold unwind. destruct rest; simpl; auto.
      apply (Hrec (Cor (g0 :: rest) (VExn e) r)).
    + destruct y as [v0|ch|t0].
      * apply (Hrec (Cor (k :: rest) v0 (RVal v0))).
      * apply (Hrec (Cor (ch :: k :: rest) VNone (RGen ch))).
      * reflexivity.
Qed.

(** *** The reactor invariant *)

Context (goal_state : nat -> S) (goal_out : nat -> outcome S D).

(** Coroutine [k] can run and will finish within [n] steps. *)
Definition ready (st : list S) (k : nat) (c : cor (list S) D) (n : nat) : Prop :=
  exists c0 s, c = cor_at k c0 /\ nth_error st k = Some s /\ tok_ok c0 s /\
    loop true n c0 s = Some (goal_state k, loop_end (goal_out k)).

(** Coroutine [k] waits for a token and will finish within [n] steps after it. *)
Definition waiting (st : list S) (k : nat) (c : cor (list S) D) (n : nat) : Prop :=
  exists c0 s t s2 v, c = cor_at k c0 /\ nth_error st k = Some s /\ tok_ok (Cor (stack c0) v (RTok t)) s2 /\
    cres c0 = RTok t /\ t s = (s2, Ok v) /\
    loop true n (Cor (stack c0) v (RTok t)) s2 = Some (goal_state k, loop_end (goal_out k)).

Definition finished (st : list S) (done : list (nat * res (list S) D)) (k : nat) : Prop :=
  exists r, goal_out k = Returned r /\ lookup_key k done = Some (res_at k r) /\ nth_error st k = Some (goal_state k).

(** Coroutine [k] raised [e]. *)
Definition failed (st : list S) (k : nat) (e : exn) : Prop :=
  goal_out k = Threw e /\ nth_error st k = Some (goal_state k).

(** Budgets: an upper bound of the remaining steps for every table entry. *)
Definition budget := list (nat * nat).
Fixpoint total (b : budget) : nat :=
  match b with [] => O | (_, n) :: r => Datatypes.S (n + total r) end.

Inductive tab_ok (st : list S) (rdy : list nat) : table -> budget -> Prop :=
| to_nil : tab_ok st rdy [] []
| to_cons : forall k c n tbl b, tab_ok st rdy tbl b ->
    (if in_dec Nat.eq_dec k rdy then ready st k c n else waiting st k c n) ->
    tab_ok st rdy ((k, c) :: tbl) ((k, n) :: b).

Lemma tab_ok_keys : forall st rdy tbl b, tab_ok st rdy tbl b -> map fst b = map fst tbl.
Proof. induction 1; simpl; congruence. Qed.

Lemma ready_frame : forall st i s k c n, k <> i -> ready st k c n -> ready (set_nth i s st) k c n.
Proof.
  intros st i s k c n Hne [c0 [s0 [-> [Hn H]]]]. exists c0, s0. split; auto.
  rewrite nth_set_neq by auto. auto.
Qed.

Lemma waiting_frame : forall st i s k c n, k <> i -> waiting st k c n -> waiting (set_nth i s st) k c n.
Proof.
  intros st i s k c n Hne [c0 [s0 [t [s2 [v [-> [Hn H]]]]]]]. exists c0, s0, t, s2, v. split; auto.
  rewrite nth_set_neq by auto. auto.
Qed.

Lemma finished_frame : forall st i s done k, k <> i -> finished st done k -> finished (set_nth i s st) done k.
Proof. intros st i s done k Hne (r & H0 & H1 & H2). exists r. split; auto. split; auto. rewrite nth_set_neq; auto. Qed.

(** Changing component [i] leaves the rest of the table in order, and taking [i] out
    of the ready list too. *)
Lemma tab_ok_frame : forall st rdy rdy' i s tbl b,
  tab_ok st rdy tbl b -> ~ In i (map fst tbl) ->
  (forall k, k <> i -> (In k rdy <-> In k rdy')) ->
  tab_ok (set_nth i s st) rdy' tbl b.
Proof.
  induction 1; intros Hni Hr; constructor.
  - apply IHtab_ok; auto. simpl in Hni; tauto.
  - simpl in Hni. assert (k <> i) by (intro; subst; tauto).
    specialize (Hr k H1).
    destruct (in_dec Nat.eq_dec k rdy), (in_dec Nat.eq_dec k rdy'); try tauto.
    + apply ready_frame; auto.
    + apply waiting_frame; auto.
Qed.

Lemma remove_not_in : forall A k (l : list (nat * A)), ~ In k (map fst l) -> remove_key k l = l.
Proof.
  unfold remove_key. induction l; simpl; intros; auto.
  destruct (Nat.eqb_spec (fst a) k); simpl. tauto. f_equal. auto.
Qed.

Lemma update_not_in : forall A k v (l : list (nat * A)), ~ In k (map fst l) -> update_key k v l = l.
Proof.
  unfold update_key. induction l; simpl; intros; auto.
  destruct (Nat.eqb_spec (fst a) k); simpl. tauto. f_equal. auto.
Qed.

(** Finishing coroutine [i]: its entry is removed. *)
Lemma tab_ok_remove : forall st rdy rdy' i s tbl b,
  tab_ok st rdy tbl b -> NoDup (map fst tbl) ->
  (forall k, k <> i -> (In k rdy <-> In k rdy')) ->
  exists b', tab_ok (set_nth i s st) rdy' (remove_key i tbl) b' /\ (total b' <= total b)%nat /\
    (In i (map fst tbl) -> (total b' < total b)%nat).
Proof.
  induction 1; intros Hnd Hr; simpl.
  - exists []; split; [constructor|simpl; split; [lia|tauto]].
  - simpl in Hnd; inversion Hnd; subst. destruct (Nat.eqb_spec k i); simpl.
    + subst. exists b. split; [|simpl; lia].
      rewrite remove_not_in by auto. eapply tab_ok_frame; eauto.
    + destruct (IHtab_ok H4 Hr) as [b' [Hb' [Ht Ht2]]]. exists ((k, n) :: b').
      split; [|simpl; split; [lia|]; intros [?|Hin]; [congruence|specialize (Ht2 Hin); lia]].
      constructor; auto. specialize (Hr k n0).
      destruct (in_dec Nat.eq_dec k rdy), (in_dec Nat.eq_dec k rdy'); try tauto.
      * apply ready_frame; auto.
      * apply waiting_frame; auto.
Qed.

Lemma tab_ok_lookup : forall st rdy tbl b k c, tab_ok st rdy tbl b -> lookup_key k tbl = Some c ->
  exists n, lookup_key k b = Some n /\ (n <= total b)%nat /\
    if in_dec Nat.eq_dec k rdy then ready st k c n else waiting st k c n.
Proof.
  induction 1; intros Hl; [discriminate|]. unfold lookup_key in Hl; simpl in Hl.
  unfold lookup_key; simpl.
  destruct (Nat.eqb_spec k0 k); simpl in Hl.
  - subst. inversion Hl; subst. exists n. simpl. repeat split; auto; lia.
  - destruct (IHtab_ok Hl) as [n' [H1 [H2 H3]]]. exists n'. repeat split; auto. lia.
Qed.

(** Replacing the entry of [i]; the total changes by the difference. *)
Lemma tab_ok_update : forall st rdy rdy' i s c' n' n tbl b,
  tab_ok st rdy tbl b -> NoDup (map fst tbl) -> lookup_key i b = Some n ->
  (forall k, k <> i -> (In k rdy <-> In k rdy')) ->
  (if in_dec Nat.eq_dec i rdy' then ready (set_nth i s st) i c' n'
   else waiting (set_nth i s st) i c' n') ->
  exists b', tab_ok (set_nth i s st) rdy' (update_key i c' tbl) b' /\
    (total b' + n = total b + n')%nat.
Proof.
  induction 1; intros Hnd Hl Hr Hc; [discriminate|]. simpl in Hnd; inversion Hnd; subst.
  unfold lookup_key in Hl; simpl in Hl. simpl.
  destruct (Nat.eqb_spec k i); simpl in Hl.
  - subst. inversion Hl; subst. exists ((i, n') :: b). split; [|simpl; lia].
    constructor; auto. rewrite update_not_in by auto. eapply tab_ok_frame; eauto.
  - destruct (IHtab_ok H4 Hl Hr Hc) as [b' [Hb' Ht]].
    exists ((k, n0) :: b'). split; [|simpl in *; lia]. constructor; auto.
    specialize (Hr k n1).
    destruct (in_dec Nat.eq_dec k rdy), (in_dec Nat.eq_dec k rdy'); try tauto.
    + apply ready_frame; auto.
    + apply waiting_frame; auto.
Qed.

Lemma run_ready_ok : forall N cmds tbl done st b,
  NoDup (map fst tbl) -> NoDup cmds -> tab_ok st cmds tbl b -> (total b <= N)%nat ->
  (forall k, In k cmds -> In k (map fst tbl)) ->
  (forall k, In k (map fst tbl) -> lookup_key k done = None) ->
  (forall k, (k < length st)%nat -> In k (map fst tbl) \/ finished st done k) ->
  (exists st' e k, run_ready N cmds tbl done st = (st', Some (Err e)) /\ failed st' k e /\ length st' = length st) \/
  exists st' tbl' done' b',
    run_ready N cmds tbl done st = (st', Some (Ok (tbl', done'))) /\
    NoDup (map fst tbl') /\ tab_ok st' [] tbl' b' /\ (total b' + length cmds <= total b)%nat /\
    length st' = length st /\
    (forall k, In k (map fst tbl') -> lookup_key k done' = None) /\
    (forall k, (k < length st')%nat -> In k (map fst tbl') \/ finished st' done' k).
Proof.
  induction cmds as [|k cmds IH]; intros tbl done st b Hnd Hndc Htab HN Hsub Hdone Hcov.
  - right. simpl. exists st, tbl, done, b. repeat split; auto. lia.
  - simpl. inversion Hndc as [|? ? Hk Hndc']; subst.
    destruct (lookup_in_keys k tbl) as [c Hlk]; [apply Hsub; left; auto|].
    rewrite Hlk.
    destruct (tab_ok_lookup _ _ _ _ _ _ Htab Hlk) as [n [Hbn [Hnt Hrd]]].
    destruct (in_dec Nat.eq_dec k (k :: cmds)) as [_|Hx]; [|exfalso; apply Hx; left; auto].
    destruct Hrd as [c0 [s [-> [Hst [Hok Hrun]]]]].
    pose proof (nth_some_lt _ _ _ Hst) as Hlt.
    assert (Hrun' : loop true N c0 s = Some (goal_state k, loop_end (goal_out k)))
      by (eapply loop_more; eauto; lia).
    rewrite (loop_at N k c0 st s Hst).
    destruct (segment n c0 s _ _ Hok Hrun) as [Hf|[c1 [s1 [t [s2 [v [n' [Hb [Hc1 [Ht [Hn' [Hok1 Hrun1]]]]]]]]]]]].
    + (* finished *)
      rewrite (loop_more _ _ N _ _ _ Hf) by lia. destruct (goal_out k) as [r|e] eqn:Eo.
      2: { left. cbn [loop_end loop_out_at]. exists (set_nth k (goal_state k) st), e, k. split; [reflexivity|].
           rewrite set_nth_length. split; [|reflexivity]. split; [exact Eo|]. apply nth_set_eq; auto. }
      cbn [loop_end loop_out_at].
      destruct (tab_ok_remove st (k :: cmds) cmds k (goal_state k) tbl b Htab Hnd) as [b' [Hb' [_ Htl]]].
      { intros j Hj; simpl; intuition congruence. }
      specialize (Htl (lookup_keys_in _ _ _ Hlk)).
      destruct (IH (remove_key k tbl) (done ++ [(k, res_at k r)])
                   (set_nth k (goal_state k) st) b') as [[st' [e [j [F1 [F2 F3]]]]]|[st' [tbl' [done' [b'' H]]]]].
      * unfold remove_key. clear - Hnd. induction tbl; simpl in *; auto.
        inversion Hnd; subst. destruct (Nat.eqb (fst a) k) eqn:E; simpl; auto. constructor; auto.
        intro Hin. apply H1. apply in_map_iff in Hin as [x [Hx1 Hx2]]. apply filter_In in Hx2 as [Hx2 _].
        rewrite <- Hx1. apply in_map; auto.
      * auto.
      * auto.
      * lia.
      * intros j Hj. apply keys_remove_in. split; [apply Hsub; right; auto|congruence].
      * intros j Hj. apply keys_remove_in in Hj as [Hj1 Hj2].
        rewrite lookup_app_none by auto. unfold lookup_key; simpl.
        destruct (Nat.eqb_spec k j); [congruence|reflexivity].
      * intros j Hj. rewrite set_nth_length in Hj. destruct (Nat.eq_dec j k) as [->|Hne].
        { right. exists r. split; [exact Eo|]. split.
          - rewrite lookup_app_none by (apply Hdone; eapply lookup_keys_in; eauto).
            unfold lookup_key; simpl. rewrite Nat.eqb_refl. reflexivity.
          - apply nth_set_eq; auto. }
        { destruct (Hcov j Hj) as [Hin|Hfin].
          - left. apply keys_remove_in; auto.
          - right. apply finished_frame; auto. destruct Hfin as (r' & Hf0 & Hf1 & Hf2). exists r'. split; auto. split; auto.
            apply lookup_app_some; auto. }
      * left. exists st', e, j. rewrite set_nth_length in F3. auto.
      * right. destruct H as [H1 [H2 [H3 [H4 [H5 H6]]]]].
        exists st', tbl', done', b''. rewrite set_nth_length in H5.
        split; [exact H1|]. split; [auto|]. split; [auto|]. split; [simpl; lia|]. auto.
    + (* blocked *)
      rewrite (loop_more _ _ N _ _ _ Hb) by lia. cbn [loop_out_at].
      assert (Hw : waiting (set_nth k s1 st) k (cor_at k c1) n').
      { exists c1, s1, t, s2, v. repeat split; auto. apply nth_set_eq; auto. }
      destruct (tab_ok_update st (k :: cmds) cmds k s1 (cor_at k c1) n' n tbl b Htab Hnd Hbn)
        as [b' [Hb' Htl]].
      { intros j Hj; simpl; intuition congruence. }
      { destruct (in_dec Nat.eq_dec k cmds); [contradiction|exact Hw]. }
      destruct (IH (update_key k (cor_at k c1) tbl) done (set_nth k s1 st) b')
        as [[st' [e [j [F1 [F2 F3]]]]]|[st' [tbl' [done' [b'' H]]]]]; auto.
      * rewrite keys_update; auto.
      * lia.
      * intros j Hj. rewrite keys_update. apply Hsub; right; auto.
      * intros j Hj. rewrite keys_update in Hj. auto.
      * intros j Hj. rewrite set_nth_length in Hj. rewrite keys_update.
        destruct (Hcov j Hj) as [Hin|Hfin]; [left; auto|].
        right. apply finished_frame; auto. intro; subst.
        destruct Hfin as (r' & _ & Hf1 & _). rewrite Hdone in Hf1; [discriminate|].
        eapply lookup_keys_in; eauto.
      * left. exists st', e, j. rewrite set_nth_length in F3. auto.
      * right. destruct H as [H1 [H2 [H3 [H4 [H5 H6]]]]].
        exists st', tbl', done', b''. rewrite set_nth_length in H5.
        split; [exact H1|]. split; [auto|]. split; [auto|]. split; [simpl; lia|]. auto.
Qed.

Lemma react_ok : forall N choose, fair_choice choose ->
  forall m cmds tbl done st b,
  NoDup (map fst tbl) -> NoDup cmds -> tab_ok st cmds tbl b -> (total b <= N)%nat ->
  (total b <= m + length cmds)%nat ->
  (forall k, In k cmds -> In k (map fst tbl)) ->
  (forall k, In k (map fst tbl) -> lookup_key k done = None) ->
  (forall k, (k < length st)%nat -> In k (map fst tbl) \/ finished st done k) ->
  (exists st' e k, react N m choose cmds tbl done st = (st', RRaised e) /\ failed st' k e /\ length st' = length st) \/
  exists st' done',
    react N m choose cmds tbl done st = (st', RDone done') /\
    length st' = length st /\
    (forall k, (k < length st')%nat -> finished st' done' k).
Proof.
  intros N choose Hfair. induction m; intros cmds tbl done st b Hnd Hndc Htab HN Hm Hsub Hdone Hcov;
  destruct (run_ready_ok N cmds tbl done st b Hnd Hndc Htab HN Hsub Hdone Hcov)
    as [[st' [e [k [F1 F2]]]]|[st' [tbl' [done' [b' [Hrun [Hnd' [Htab' [Hle [Hlen [Hdone' Hcov']]]]]]]]]]];
    try (left; exists st', e, k; simpl; rewrite F1; auto; fail); simpl; rewrite Hrun.
  - right. assert (total b' = 0)%nat by lia.
    inversion Htab'; subst; [|simpl in *; lia].
    exists st', done'. split; auto. split; auto. intros k Hk. destruct (Hcov' k Hk); auto. contradiction.
  - destruct tbl' as [|p tbl'].
    + right. exists st', done'. split; auto. split; auto. intros k Hk. destruct (Hcov' k Hk); auto. contradiction.
    + remember (p :: tbl') as tb eqn:Etb.
      assert (Hne : map fst tb <> []) by (subst; discriminate).
      pose proof (Hfair m (map fst tb) Hne) as Hin.
      set (k := choose m (map fst tb)) in *.
      destruct (lookup_in_keys k tb Hin) as [c Hlk]. rewrite Hlk.
      destruct (tab_ok_lookup _ _ _ _ _ _ Htab' Hlk) as [n [Hbn [Hnt Hw]]].
      destruct (in_dec Nat.eq_dec k []) as [[]|_].
      destruct Hw as [c0 [s [t [s2 [v [-> [Hst [Hok [Hc0 [Ht Hrun2]]]]]]]]]].
      pose proof (nth_some_lt _ _ _ Hst) as Hlt.
      unfold async_io_complete. cbn [cor_at cres]. rewrite Hc0. cbn [res_at].
      assert (Etk : token_at k t st' = (set_nth k s2 st', Ok v)) by (unfold token_at; rewrite Hst, Ht; reflexivity).
      rewrite !Etk.
      replace (Cor (stack (cor_at k c0)) v (RTok (token_at k t)))
        with (cor_at k (Cor (stack c0) v (RTok t))) by reflexivity.
      assert (Hr : ready (set_nth k s2 st') k (cor_at k (Cor (stack c0) v (RTok t))) n).
      { exists (Cor (stack c0) v (RTok t)), s2. repeat split; auto. apply nth_set_eq; auto. }
      destruct (tab_ok_update st' [] [k] k s2 (cor_at k (Cor (stack c0) v (RTok t))) n n tb b' Htab' Hnd' Hbn)
        as [b2 [Hb2 Htot]].
      { intros j Hj; simpl; intuition congruence. }
      { destruct (in_dec Nat.eq_dec k [k]) as [_|Hx]; [exact Hr|exfalso; apply Hx; left; auto]. }
      destruct (IHm [k] (update_key k (cor_at k (Cor (stack c0) v (RTok t))) tb) done' (set_nth k s2 st') b2)
        as [[st'' [e [j [F1 [F2 F3]]]]]|[st'' [done'' [H1 [H2 H3]]]]]; auto.
      * rewrite keys_update; auto.
      * constructor; [intros []|constructor].
      * lia.
      * simpl. lia.
      * intros j [<-|[]]. rewrite keys_update; auto.
      * intros j Hj. rewrite keys_update in Hj. auto.
      * intros j Hj. rewrite set_nth_length in Hj. rewrite keys_update.
        destruct (Hcov' j Hj) as [Hi|Hfin]; [left; auto|].
        right. apply finished_frame; auto. intro; subst j.
        destruct Hfin as (r' & _ & Hf1 & _). rewrite Hdone' in Hf1; [discriminate|]. auto.
      * left. exists st'', e, j. rewrite set_nth_length in F3. split; [exact F1|]. split; [exact F2|congruence].
      * right. exists st'', done''. split; [exact H1|]. rewrite set_nth_length in H2. split; [congruence|auto].
Qed.

End Facts.

Section Final.
Context {S D : Type}.

Lemma in_combine_seq : forall A (l : list A) n k x,
  In (k, x) (combine (seq n (length l)) l) -> (n <= k)%nat /\ nth_error l (k - n) = Some x.
Proof.
  induction l; simpl; intros; [contradiction|]. destruct H.
  - inversion H; subst. rewrite Nat.sub_diag. split; auto.
  - apply IHl in H as [H1 H2]. split; [lia|].
    replace (k - n)%nat with (Datatypes.S (k - Datatypes.S n)) by lia. auto.
Qed.

Lemma combine_seq_keys : forall A (l : list A) n, map fst (combine (seq n (length l)) l) = seq n (length l).
Proof. induction l; simpl; intros; f_equal; auto. Qed.

Lemma commands_at_length : forall gs : list (gen S D), length (commands_at gs) = length gs.
Proof. intros. unfold commands_at. rewrite map_length, combine_length, seq_length. lia. Qed.

Lemma init_table : forall (gs : list (gen S D)) n,
  combine (seq n (length gs)) (map coroutine_init (map (fun p => gen_at (fst p) (snd p)) (combine (seq n (length gs)) gs)))
  = map (fun p => (fst p, cor_at (fst p) (coroutine_init (snd p)))) (combine (seq n (length gs)) gs).
Proof. induction gs; simpl; intros; auto. f_equal. apply IHgs. Qed.

Lemma collect_ok : forall (f : nat -> res S D) (done : list (nat * res (list S) D)) ks,
  (forall k, In k ks -> lookup_key k done = Some (res_at k (f k))) ->
  collect ks done = Ok (map (fun k => res_at k (f k)) ks).
Proof.
  induction ks; simpl; intros; auto. rewrite H by auto. rewrite IHks by auto. reflexivity.
Qed.

Lemma map_seq_nth : forall A B (h : nat -> A -> B) (l : list A) d n,
  map (fun k => h k (nth (k - n) l d)) (seq n (length l)) =
  map (fun p => h (fst p) (snd p)) (combine (seq n (length l)) l).
Proof.
  induction l; simpl; intros; auto. rewrite Nat.sub_diag. f_equal.
  rewrite <- (IHl d (Datatypes.S n)). apply map_ext_in. intros k Hk. apply in_seq in Hk.
  replace (k - n)%nat with (Datatypes.S (k - Datatypes.S n)) by lia. reflexivity.
Qed.

Lemma list_eq_nth : forall A (l1 l2 : list A), length l1 = length l2 ->
  (forall k, (k < length l1)%nat -> nth_error l1 k = nth_error l2 k) -> l1 = l2.
Proof.
  induction l1; destruct l2; simpl; intros; auto; try lia.
  f_equal. specialize (H0 O ltac:(lia)). simpl in H0. congruence.
  apply IHl1. lia. intros. apply (H0 (Datatypes.S k)). lia.
Qed.

Lemma sync_no_block : forall n (c : cor S D) s s' c1, loop true n c s = Some (s', Blocked c1) -> False.
Proof.
  induction n; intros c s s' c1 H; simpl in H; destruct (stack c) eqn:E; try discriminate.
  unfold next_step in H. rewrite E in H. destruct (resume g (input_of (args c)) s) as [s1 [|e|y k]]; try (eapply IHn; eassumption).
  - unfold unwind in H. destruct l; [discriminate|]. eapply IHn; eassumption.
  - destruct y as [v|ch|t]; try (eapply IHn; eassumption).
    destruct (t s1) as [s2 [v|e]]; [eapply IHn; eassumption|]. unfold unwind in H. destruct l; [discriminate|]. eapply IHn; eassumption.
Qed.

Lemma nth_error_seq0 : forall n k, (k < n)%nat -> nth_error (seq 0 n) k = Some k.
Proof.
  intros n k H. rewrite (nth_error_nth' _ 0%nat) by (rewrite seq_length; exact H). rewrite seq_nth by exact H. reflexivity.
Qed.

(** Uniform step bound for finitely many terminating runs. *)
Lemma common_bound : forall (gs : list (gen S D)) ss ss' rs,
  length ss = length gs -> length ss' = length gs -> length rs = length gs ->
  (forall i g s s' r, nth_error gs i = Some g -> nth_error ss i = Some s ->
     nth_error ss' i = Some s' -> nth_error rs i = Some r ->
     sync_wait_ends g s s' r) ->
  exists n, forall i g s s' r, nth_error gs i = Some g -> nth_error ss i = Some s ->
     nth_error ss' i = Some s' -> nth_error rs i = Some r ->
     loop true n (coroutine_init g) s = Some (s', loop_end r).
Proof.
  induction gs as [|g gs IH]; intros ss ss' rs H1 H2 H3 H.
  - exists O. intros i g s s' r Hg. destruct i; discriminate.
  - destruct ss as [|s ss], ss' as [|s' ss'], rs as [|r rs]; try discriminate.
    destruct (IH ss ss' rs) as [n Hn]; try (simpl in *; lia).
    { intros i. apply (H (Datatypes.S i)). }
    destruct (H O g s s' r eq_refl eq_refl eq_refl eq_refl) as [m Hm].
    exists (Nat.max n m). intros [|i] g0 s0 s0' r0 Hg Hs Hs' Hr; simpl in *.
    + inversion Hg; inversion Hs; inversion Hs'; inversion Hr; subst.
      specialize (Hm m (le_n m)). unfold sync_wait in Hm.
      destruct (loop true m (coroutine_init g0) s0) as [[s1 l]|] eqn:E; [|discriminate].
      destruct l as [x|x|x].
      * inversion Hm; subst. eapply loop_more; [exact E|lia].
      * destruct (sync_no_block _ _ _ _ _ E).
      * inversion Hm; subst. eapply loop_more; [exact E|lia].
    + eapply loop_more; [eapply Hn; eauto|]. lia.
Qed.

(** Every outcome: either all return, or the exception of one that raises. *)
Theorem async_wait_outcomes : forall (gs : list (gen S D)) ss ss' rs,
  length ss = length gs -> length ss' = length gs -> length rs = length gs ->
  (forall i g s, nth_error gs i = Some g -> nth_error ss i = Some s -> tok_ok (coroutine_init g) s) ->
  (forall i g s s' r, nth_error gs i = Some g -> nth_error ss i = Some s ->
     nth_error ss' i = Some s' -> nth_error rs i = Some r ->
     sync_wait_ends g s s' r) ->
  exists N, forall n m choose, (N <= n)%nat -> (N <= m)%nat -> fair_choice choose ->
    (exists vs, rs = map Returned vs /\ async_wait n m choose (commands_at gs) ss = (ss', Some (Ok (results_at vs)))) \/
    (exists i e st, nth_error rs i = Some (Threw e) /\ async_wait n m choose (commands_at gs) ss = (st, Some (Err e)) /\
       length st = length gs /\ nth_error st i = nth_error ss' i).
Proof.
  intros gs ss ss' rs H1 H2 H3 Htok H.
  destruct (common_bound gs ss ss' rs H1 H2 H3 H) as [n0 Hn0]. clear H.
  destruct gs as [|g0 gs0].
  { exists O. intros. destruct ss, ss', rs; try discriminate. left. exists []. split; [reflexivity|].
    unfold async_wait, commands_at, keys; simpl. destruct m; reflexivity. }
  remember (g0 :: gs0) as gs eqn:Egs.
  assert (exists d0 : S, True) as [d0 _] by (destruct ss as [|x ?]; subst; [discriminate|exists x; auto]).
  assert (exists dr : outcome S D, True) as [dr _] by (destruct rs as [|x ?]; subst; [discriminate|exists x; auto]).
  set (gst := fun k => nth k ss' d0). set (grs := fun k => nth k rs dr).
  set (bud := map (fun k => (k, n0)) (seq 0 (length gs))).
  exists (total bud). intros n m choose Hn Hm Hfair.
  assert (Ktbl : combine (keys (commands_at gs)) (map coroutine_init (commands_at gs)) =
    map (fun p => (fst p, cor_at (fst p) (coroutine_init (snd p)))) (combine (seq 0 (length gs)) gs)).
  { unfold keys. rewrite commands_at_length. apply init_table. }
  set (tbl := map (fun p => (fst p, cor_at (fst p) (coroutine_init (snd p)))) (combine (seq 0 (length gs)) gs)).
  assert (Kk : map fst tbl = seq 0 (length gs)).
  { unfold tbl. rewrite map_map. simpl. apply combine_seq_keys. }
  assert (U : async_wait n m choose (commands_at gs) ss =
    match react n m choose (seq 0 (length gs)) tbl [] ss with
    | (s1, RBudget) => (s1, None)
    | (s1, RRaised e) => (s1, Some (Err e))
    | (s1, RDone done) => (s1, Some (collect (seq 0 (length gs)) done))
    end).
  { unfold async_wait. rewrite Ktbl. unfold keys. rewrite commands_at_length. reflexivity. }
  rewrite U. clear U.
  destruct (react_ok gst grs n choose Hfair m (seq 0 (length gs)) tbl [] ss bud)
    as [[st' [e [k [Hr [[Hf1 Hf2] Hlen]]]]]|[st' [done' [Hr [Hlen Hfin]]]]].
  - rewrite Kk. apply seq_NoDup.
  - apply seq_NoDup.
  - assert (HT : forall l : list (nat * gen S D),
      (forall k g, In (k, g) l -> (k < length gs)%nat /\ nth_error gs k = Some g) ->
      tab_ok gst grs ss (seq 0 (length gs))
        (map (fun p => (fst p, cor_at (fst p) (coroutine_init (snd p)))) l)
        (map (fun k => (k, n0)) (map fst l))).
    { induction l as [|[k g] l IHl]; simpl; intros Hin; constructor; auto.
      destruct (Hin k g (or_introl eq_refl)) as [Hk Hg].
      destruct (in_dec Nat.eq_dec k (seq 0 (length gs))) as [_|Hx]; [|exfalso; apply Hx, in_seq; lia].
      destruct (nth_error ss k) as [s|] eqn:Es; [|apply nth_error_None in Es; lia].
      exists (coroutine_init g), s. split; auto. split; auto. split.
      - eapply Htok; eauto.
      - eapply Hn0; eauto.
        + unfold gst. destruct (nth_error ss' k) eqn:E; [|apply nth_error_None in E; lia].
          erewrite nth_error_nth; eauto.
        + unfold grs. destruct (nth_error rs k) eqn:E; [|apply nth_error_None in E; lia].
          erewrite nth_error_nth; eauto. }
    unfold bud. rewrite <- (combine_seq_keys _ gs 0) at 2. apply HT.
    intros k g Hin. apply in_combine_seq in Hin as [_ Hin]. rewrite Nat.sub_0_r in Hin.
    split; auto. apply nth_error_Some. congruence.
  - auto.
  - lia.
  - intros k Hk. rewrite Kk; auto.
  - reflexivity.
  - intros k Hk. left. rewrite Kk. apply in_seq. lia.
  - right. rewrite Hr.
    assert (Hk : (k < length gs)%nat) by (apply nth_some_lt in Hf2; lia).
    exists k, e, st'. split; [|split; [reflexivity|split; [lia|]]].
    + rewrite <- Hf1. unfold grs. apply nth_error_nth'. lia.
    + rewrite Hf2. unfold gst. symmetry. apply nth_error_nth'. lia.
  - left. rewrite Hr.
    assert (Hst : st' = ss').
    { apply list_eq_nth; [lia|]. intros k Hk. destruct (Hfin k Hk) as (r & _ & _ & ->).
      unfold gst. symmetry. apply nth_error_nth'. lia. }
    subst st'.
    set (value := fun k => match grs k with Returned r => r | Threw _ => RVal VNone end).
    assert (Hv : forall k, (k < length gs)%nat -> grs k = Returned (value k)).
    { intros k Hk. destruct (Hfin k) as (r & Er & _ & _); [lia|]. unfold value. rewrite Er. reflexivity. }
    exists (map value (seq 0 (length gs))). split.
    + apply list_eq_nth; [rewrite !map_length, seq_length; lia|]. intros k Hk. rewrite H3 in Hk.
      rewrite map_map, nth_error_map, nth_error_seq0 by exact Hk. cbn. rewrite <- Hv by exact Hk.
      unfold grs. apply nth_error_nth'. lia.
    + f_equal. f_equal.
      rewrite (collect_ok value).
      * f_equal. unfold results_at. rewrite <- (map_seq_nth _ _ (fun k r => res_at k r) (map value (seq 0 (length gs))) (value 0%nat) 0).
        rewrite map_length, seq_length. apply map_ext_in. intros k Hk. apply in_seq in Hk. rewrite Nat.sub_0_r.
        rewrite map_nth, seq_nth by lia. reflexivity.
      * intros k Hk. apply in_seq in Hk. destruct (Hfin k) as (r & Er & El & _); [lia|].
        rewrite El. unfold value. rewrite Er. reflexivity.
Qed.

Theorem async_wait_smooth : forall (gs : list (gen S D)) ss ss' rs,
  length ss = length gs -> length ss' = length gs -> length rs = length gs ->
  (forall i g s, nth_error gs i = Some g -> nth_error ss i = Some s -> tok_ok (coroutine_init g) s) ->
  (forall i g s s' r, nth_error gs i = Some g -> nth_error ss i = Some s ->
     nth_error ss' i = Some s' -> nth_error rs i = Some r ->
     sync_wait_ends g s s' (Returned r)) ->
  exists N, forall n m choose, (N <= n)%nat -> (N <= m)%nat -> fair_choice choose ->
    async_wait n m choose (commands_at gs) ss = (ss', Some (Ok (results_at rs))).
Proof.
  intros gs ss ss' rs H1 H2 H3 Ht H.
  destruct (async_wait_outcomes gs ss ss' (map Returned rs) H1 H2) as [N HN]; [rewrite map_length; exact H3|exact Ht| |].
  - intros i g s s' r Hg Hs Hs' Hr. rewrite nth_error_map in Hr. destruct (nth_error rs i) as [r0|] eqn:E; [|discriminate].
    injection Hr as <-. eapply H; eauto.
  - exists N. intros n m choose Hn Hm Hf. destruct (HN n m choose Hn Hm Hf) as [(vs & Ev & E)|(i & e & st & Ei & _)].
    + rewrite E. do 4 f_equal. symmetry. clear - Ev. revert vs Ev. induction rs as [|r rs IH]; intros [|v vs] Ev; try discriminate; [reflexivity|].
      cbn in Ev. injection Ev as -> Ev. f_equal. auto.
    + rewrite nth_error_map in Ei. destruct (nth_error rs i); discriminate.
Qed.

(** Generators whose tokens never fail. *)
Lemma never_smooth : forall n (c : cor S D) s, Forall tokens_never_fail (stack c) -> smooth n c s.
Proof.
  induction n; intros c s F; simpl; auto. destruct c as [[|g rest] a r]; simpl in *; auto.
  inversion F as [|? ? Hg Hr]; subst. destruct Hg as [Hv Hc Ht].
  destruct (resume g (input_of a) s) as [s1 [|e|y k]] eqn:E.
  - apply IHn. exact Hr.
  - destruct rest; auto.
  - destruct y as [v|ch|t].
    + apply IHn. constructor; eauto.
    + destruct (Hc _ _ _ _ _ E). apply IHn. constructor; auto.
    + destruct (Ht _ _ _ _ _ E) as [Htt Hk]. destruct (Htt s1) as (s2 & v & ->). apply IHn. constructor; auto.
Qed.

Theorem async_wait_correct : forall (gs : list (gen S D)) ss ss' rs,
  length ss = length gs -> length ss' = length gs -> length rs = length gs ->
  Forall tokens_never_fail gs ->
  (forall i g s s' r, nth_error gs i = Some g -> nth_error ss i = Some s ->
     nth_error ss' i = Some s' -> nth_error rs i = Some r ->
     sync_wait_ends g s s' (Returned r)) ->
  exists N, forall n m choose, (N <= n)%nat -> (N <= m)%nat -> fair_choice choose ->
    async_wait n m choose (commands_at gs) ss = (ss', Some (Ok (results_at rs))).
Proof.
  intros gs ss ss' rs H1 H2 H3 Ht H. apply async_wait_smooth; auto.
  intros i g s Hg Hs n. apply never_smooth. simpl. constructor; [|constructor].
  rewrite Forall_forall in Ht. apply Ht. eapply nth_error_In; eauto.
Qed.

Lemma call_not_exn : forall (g : gen S D) i p s s' o, evaluates g i p s s' o ->
  match o with CallReturns v _ => not_exn v | CallRaises _ => True end.
Proof. induction 1; auto. Qed.

(** Evaluations meet no failing token. *)
Lemma evaluates_smooth : forall (g : gen S D) i p s s' o, evaluates g i p s s' o -> forall rest a r, input_of a = i ->
  (match o with
   | CallReturns v _ => forall r', tok_ok (Cor rest v r') s'
   | CallRaises e => rest = [] \/ forall r', tok_ok (Cor rest (VExn e) r') s'
   end) -> tok_ok (Cor (g :: rest) a r) s.
Proof.
  induction 1; intros rest a r Hi Hk [|n]; simpl; auto; rewrite Hi.
  - rewrite H. apply input_of_send in Hi as [-> Hn]. apply Hk.
  - rewrite H. destruct rest; auto. destruct Hk as [Hk|Hk]; [discriminate|]. apply Hk.
  - rewrite H. apply IHevaluates; auto. apply input_of_not_exn. exact H0.
  - rewrite H. apply IHevaluates1; auto. intros r'. apply IHevaluates2; auto.
    apply input_of_not_exn. exact (call_not_exn _ _ _ _ _ _ H0).
  - rewrite H. apply IHevaluates1; auto.
  - rewrite H, H0. apply IHevaluates; auto. apply input_of_not_exn. exact H1.
Qed.

Lemma call_smooth : forall (g : gen S D) s s' o, call_evaluates g s s' o -> tok_ok (coroutine_init g) s.
Proof.
  intros g s s' o H. refine (evaluates_smooth _ _ _ _ _ _ H _ _ _ _ _); try reflexivity.
  destruct o; [intros r' [|n]; exact Logic.I|left; reflexivity].
Qed.
End Final.
