(** Proofs about constructor calls with arguments by position and by keyword. *)
From Coq Require Import String ZArith List Bool Arith Lia Permutation.
From Verif Require Import Base OsCommon Instruct Command SpecCdb Pages CallForms SpecCallForms DefaultFacts.
Import ListNotations.
Local Open Scope string_scope.
Local Open Scope list_scope.

Lemma looked_up : forall (kw : list (string * argument)) n v, NoDup (map fst kw) -> (lookup n kw = Some v <-> In (n, v) kw).
Proof.
  induction kw as [|[m w] r IH]; intros n v D; cbn; [split; [discriminate|tauto]|].
  inversion D; subst. destruct (String.eqb_spec n m) as [->|N].
  - split; [intros [= ->]; auto|]. intros [[= ->]|H]; [reflexivity|]. exfalso. apply H1. change m with (fst (m, v)). apply in_map. exact H.
  - rewrite IH by assumption. split; [auto|]. intros [[= -> ->]|H]; [congruence|exact H].
Qed.
Lemma looked_none : forall (kw : list (string * argument)) n, lookup n kw = None <-> ~ In n (map fst kw).
Proof.
  induction kw as [|[m w] r IH]; intros n; cbn; [tauto|].
  destruct (String.eqb_spec n m) as [->|N]; [split; [discriminate|tauto]|]. rewrite IH. split; [intros H [->|K]; tauto|tauto].
Qed.
Lemma known_names : forall (kw : list (string * argument)) l,
  forallb (fun k => existsb (String.eqb (fst k)) l) kw = true <-> forall n v, In (n, v) kw -> In n l.
Proof.
  intros kw l. rewrite forallb_forall. split.
  - intros H n v K. specialize (H _ K). apply existsb_exists in H. destruct H as (m & Hm & E). cbn in E. apply String.eqb_eq in E. subst. exact Hm.
  - intros H [n v] K. apply existsb_exists. exists n. split; [exact (H _ _ K)|apply String.eqb_refl].
Qed.

Lemma names_of : forall c, map fst (signature c) = order c.
Proof. destruct c; reflexivity. Qed.
Lemma names_differ : forall c, NoDup (order c).
Proof. destruct c; cbn; repeat constructor; cbn; intuition discriminate. Qed.
Lemma defaults_of : forall c n d, In (n, Some d) (signature c) <-> In (n, d) (optional c).
Proof. intros c n d. destruct c; cbn; unfold Defaults.DEFAULT_BLOCK_SIZE, Defaults.STANDARD_INQUIRY_MINIMAL_DATA_LENGTH; intuition congruence. Qed.
Lemma optional_once : forall c, NoDup (map fst (optional c)).
Proof. destruct c; cbn; repeat constructor; cbn; intuition discriminate. Qed.

Lemma nth_skipn : forall A k (l : list A) i, nth_error (skipn k l) i = nth_error l (k + i).
Proof. induction k as [|k IH]; intros l i; [reflexivity|]. destruct l; cbn; [destruct i; reflexivity|apply IH]. Qed.
Lemma map_skipn : forall A B (f : A -> B) k l, map f (skipn k l) = skipn k (map f l).
Proof. induction k as [|k IH]; intros [|a l]; cbn; auto. Qed.

(** The parameters that are left after those given by position. *)
Lemma left_over : forall c pos n, In n (skipn (length pos) (order c)) <-> In n (order c) /\ ~ by_position c pos n.
Proof.
  intros c pos n. split.
  - intro H. apply In_nth_error in H. destruct H as (i & E). rewrite nth_skipn in E. split; [eapply nth_error_In; exact E|].
    intros (j & E' & L). assert (j = length pos + i)%nat; [|lia].
    eapply (proj1 (NoDup_nth_error (order c)) (names_differ c)); [apply nth_error_Some; congruence|congruence].
  - intros [H N]. apply In_nth_error in H. destruct H as (i & E).
    destruct (lt_dec i (length pos)) as [L|L]; [exfalso; apply N; exists i; auto|].
    apply nth_error_In with (i - length pos)%nat. rewrite nth_skipn. replace (length pos + (i - length pos))%nat with i by lia. exact E.
Qed.

Lemma bound_rest : forall kw f l, (forall p, In p l -> bind_one kw p = Ok (f (fst p))) -> bind_rest kw l = Ok (map f (map fst l)).
Proof.
  induction l as [|p r IH]; intro H; [reflexivity|]. cbn. rewrite (H p) by (left; reflexivity). cbn. rewrite IH by (intros; apply H; right; assumption). reflexivity.
Qed.
Lemma one_way : forall kw p, (exists v, bind_one kw p = Ok v) \/ bind_one kw p = Err EType.
Proof. intros kw [n [d|]]; unfold bind_one; cbn; destruct (lookup n kw); eauto. Qed.
Lemma rest_way : forall kw l, (exists v, bind_rest kw l = Ok v) \/ bind_rest kw l = Err EType.
Proof.
  induction l as [|p r IH]; cbn; [eauto|]. destruct (one_way kw p) as [[v ->]| ->]; cbn; [|auto].
  destruct IH as [[w ->]| ->]; cbn; eauto.
Qed.
Lemma missing_rest : forall kw p l, In p l -> bind_one kw p = Err EType -> bind_rest kw l = Err EType.
Proof.
  induction l as [|q r IH]; intros H E; [destruct H|]. cbn. destruct H as [->|H]; [rewrite E; reflexivity|].
  destruct (one_way kw q) as [[v ->]| ->]; cbn; [|reflexivity]. rewrite IH by assumption. reflexivity.
Qed.

Lemma named_list : forall A B (f : A -> B) (m : list A) (l : list B), length l = length m ->
  (forall i n v, nth_error m i = Some n -> nth_error l i = Some v -> v = f n) -> l = map f m.
Proof.
  induction m as [|n m IH]; intros [|v l] E H; try discriminate; [reflexivity|]. cbn. f_equal.
  - exact (H 0%nat n v eq_refl eq_refl).
  - apply IH; [injection E; auto|]. intros i. exact (H (Datatypes.S i)).
Qed.

Lemma stands_once : forall c pos kw n v w, NoDup (map fst kw) -> understood c pos kw ->
  stands_for c pos kw n v -> stands_for c pos kw n w -> v = w.
Proof.
  intros c pos kw n v w D (L & K & M) A B.
  assert (P : forall i u, nth_error (order c) i = Some n -> nth_error pos i = Some u -> by_position c pos n).
  { intros i u E E'. exists i. split; [exact E|]. apply nth_error_Some. congruence. }
  assert (Q : forall u, In (n, u) kw -> In n (map fst kw)) by (intros u H; change n with (fst (n, u)); apply in_map; exact H).
  destruct A as [i E E'|H|N1 N2 H]; destruct B as [j F F'|H'|N1' N2' H'].
  - assert (i = j); [|subst; congruence].
    eapply (proj1 (NoDup_nth_error (order c)) (names_differ c)); [apply nth_error_Some; congruence|congruence].
  - exfalso. exact (proj2 (K _ _ H') (P _ _ E E')).
  - exfalso. exact (N1' (P _ _ E E')).
  - exfalso. exact (proj2 (K _ _ H) (P _ _ F F')).
  - apply (looked_up kw n _ D) in H, H'. congruence.
  - exfalso. exact (N2' (Q _ H)).
  - exfalso. exact (N1 (P _ _ F F')).
  - exfalso. exact (N2 (Q _ H')).
  - apply (looked_up _ n _ (optional_once c)) in H, H'. congruence.
Qed.

Lemma understood_bound : forall c pos kw f, NoDup (map fst kw) -> understood c pos kw ->
  (forall n, In n (order c) -> stands_for c pos kw n (f n)) -> bind_arguments (signature c) pos kw = Ok (map f (order c)).
Proof.
  intros c pos kw f D U F. pose proof U as (L & K & M). unfold bind_arguments.
  assert (LL : length (signature c) = length (order c)) by (rewrite <- names_of, map_length; reflexivity).
  rewrite LL. destruct (Nat.ltb_spec (length (order c)) (length pos)); [lia|].
  assert (G : forallb (fun k => existsb (String.eqb (fst k)) (map fst (skipn (length pos) (signature c)))) kw = true).
  { apply known_names. intros n v H'. rewrite map_skipn, names_of. apply left_over. exact (K _ _ H'). }
  rewrite G. rewrite bound_rest with (f := f).
  2:{ intros [n d] H'. assert (I : In n (skipn (length pos) (order c))).
      { rewrite <- names_of, <- map_skipn. change n with (fst (n, d)). apply in_map. exact H'. }
      apply left_over in I. destruct I as [I N]. cbn. unfold bind_one. cbn.
      assert (S' : In (n, d) (signature c)).
      { rewrite <- (firstn_skipn (length pos) (signature c)). apply in_or_app. right. exact H'. }
      destruct (lookup n kw) as [v|] eqn:E.
      - f_equal. eapply stands_once; [exact D|exact U| |apply F; exact I]. apply with_its_name. apply looked_up; assumption.
      - apply looked_none in E.
        destruct (M n I) as [?|[?|O']]; [contradiction|contradiction|]. apply in_map_iff in O'. destruct O' as ([n' v] & X & O'). cbn in X. subst n'.
        pose proof (proj2 (defaults_of c n v) O') as O2.
        assert (d = Some v) as ->.
        { assert (ND : NoDup (map fst (signature c))) by (rewrite names_of; apply names_differ).
          clear -S' O2 ND. induction (signature c) as [|[m e] r IH]; [destruct S'|]. cbn in ND. inversion ND; subst.
          assert (Q : forall x, In (n, x) r -> m <> n).
          { intros x I' ->. apply H1. change n with (fst (n, x)). apply in_map. exact I'. }
          destruct S' as [S'|S'], O2 as [O2|O2]; [congruence| | |auto].
          - exfalso. apply (Q _ O2). congruence.
          - exfalso. apply (Q _ S'). congruence. }
        f_equal. eapply stands_once; [exact D|exact U| |apply F; exact I]. apply left_out; assumption. }
  cbn. f_equal. rewrite map_skipn, names_of.
  rewrite <- (firstn_skipn (length pos) (order c)) at 2. rewrite map_app. f_equal.
  apply named_list; [rewrite firstn_length; lia|]. intros i n v E E'.
  assert (Hi : (i < length pos)%nat) by (apply nth_error_Some; congruence).
  assert (E2 : nth_error (order c) i = Some n).
  { rewrite <- (firstn_skipn (length pos) (order c)). rewrite nth_error_app1; [exact E|]. apply nth_error_Some. congruence. }
  eapply stands_once; [exact D|exact U|eapply at_its_place; eassumption|]. apply F. eapply nth_error_In. exact E2.
Qed.

Lemma init_same : forall c f, (forall n, In n (order c) -> of_kind n (f n)) -> run_init c (map f (order c)) = constructed (command_of c f).
Proof.
  intros c f H. destruct c; cbn [order map] in *;
    repeat match type of H with forall n, In n (?x :: ?r) -> _ =>
      let H1 := fresh "K" in pose proof (H x (or_introl eq_refl)) as H1; cbn in H1; destruct H1 as [? H1];
      assert (H' : forall n, In n r -> of_kind n (f n)) by (intros; apply H; right; assumption); clear H; rename H' into H end;
    cbn [run_init command_of];
    repeat match goal with K : f _ = _ |- _ => rewrite K; clear K end; cbn [int buf constructed]; rewrite ?with_nothing; reflexivity.
Qed.

Lemma called_as : forall c pos kw f, NoDup (map fst kw) -> understood c pos kw ->
  (forall n, In n (order c) -> stands_for c pos kw n (f n) /\ of_kind n (f n)) -> call_class c pos kw = constructed (command_of c f).
Proof.
  intros c pos kw f D U F. unfold call_class. rewrite (understood_bound c pos kw f D U) by (intros; apply F; assumption). cbn.
  apply init_same. intros; apply F; assumption.
Qed.

Lemma each_has_one : forall c pos kw, NoDup (map fst kw) -> understood c pos kw ->
  forall n, In n (order c) -> exists v, stands_for c pos kw n v /\ forall w, stands_for c pos kw n w -> w = v.
Proof.
  intros c pos kw D U n I. pose proof U as (L & K & M).
  assert (X : exists v, stands_for c pos kw n v).
  { destruct (in_dec string_dec n (skipn (length pos) (order c))) as [J|J].
    - apply left_over in J. destruct J as [_ N].
      destruct (M n I) as [?|[O'|O']]; [contradiction| |].
      + apply in_map_iff in O'. destruct O' as ([n' v] & X & O'). cbn in X. subst. exists v. apply with_its_name. exact O'.
      + destruct (in_dec string_dec n (map fst kw)) as [P|P].
        * apply in_map_iff in P. destruct P as ([n' v] & X & P). cbn in X. subst. exists v. apply with_its_name. exact P.
        * apply in_map_iff in O'. destruct O' as ([n' v] & X & O'). cbn in X. subst. exists v. apply left_out; assumption.
    - apply In_nth_error in I. destruct I as (i & E).
      destruct (nth_error pos i) as [v|] eqn:E'; [exists v; eapply at_its_place; eassumption|].
      exfalso. apply J. apply nth_error_None in E'. apply nth_error_In with (i - length pos)%nat.
      rewrite nth_skipn. replace (length pos + (i - length pos))%nat with i by lia. exact E. }
  destruct X as (v & X). exists v. split; [exact X|]. intros w W. eapply stands_once; eassumption.
Qed.

Lemma bound_understood : forall c pos kw vs, NoDup (map fst kw) -> bind_arguments (signature c) pos kw = Ok vs -> understood c pos kw.
Proof.
  intros c pos kw vs D. unfold bind_arguments.
  assert (LL : length (signature c) = length (order c)) by (rewrite <- names_of, map_length; reflexivity).
  rewrite LL. destruct (Nat.ltb_spec (length (order c)) (length pos)) as [|L]; [discriminate|].
  destruct (forallb _ kw) eqn:G; [|discriminate]. intro E.
  pose proof (proj1 (known_names _ _) G) as G'. rewrite map_skipn, names_of in G'.
  split; [exact L|]. split.
  - intros n v H. apply left_over. eapply G'. exact H.
  - intros n I. destruct (in_dec string_dec n (skipn (length pos) (order c))) as [J|J].
    + right. rewrite <- names_of, <- map_skipn in J. apply in_map_iff in J. destruct J as ([n' d] & X & J). cbn in X. subst n'.
      destruct (lookup n kw) as [v|] eqn:E1.
      * left. apply looked_up in E1; [|exact D]. change n with (fst (n, v)). apply in_map. exact E1.
      * right. destruct d as [d|].
        -- assert (S' : In (n, Some d) (signature c)) by (rewrite <- (firstn_skipn (length pos) (signature c)); apply in_or_app; right; exact J).
           apply defaults_of in S'. change n with (fst (n, d)). apply in_map. exact S'.
        -- rewrite (missing_rest kw (n, None) _ J) in E; [discriminate|]. unfold bind_one. cbn. rewrite E1. reflexivity.
    + left. apply In_nth_error in I. destruct I as (i & E1). exists i. split; [exact E1|].
      destruct (lt_dec i (length pos)) as [|N]; [assumption|]. exfalso. apply J. apply nth_error_In with (i - length pos)%nat.
      rewrite nth_skipn. replace (length pos + (i - length pos))%nat with i by lia. exact E1.
Qed.

Lemma not_understood : forall c pos kw, NoDup (map fst kw) -> ~ understood c pos kw -> call_class c pos kw = Err EType.
Proof.
  intros c pos kw D N. unfold call_class.
  destruct (bind_arguments (signature c) pos kw) as [vs|e] eqn:E.
  - exfalso. exact (N (bound_understood _ _ _ _ D E)).
  - cbn. f_equal. unfold bind_arguments in E. destruct (Nat.ltb _ _); [congruence|]. destruct (forallb _ _); [|congruence].
    destruct (rest_way kw (skipn (length pos) (signature c))) as [[v X]|X]; rewrite X in E; cbn in E; congruence.
Qed.

Lemma lookup_order : forall (kw kw' : list (string * argument)) n, NoDup (map fst kw) -> Permutation kw kw' -> lookup n kw = lookup n kw'.
Proof.
  intros kw kw' n D P. assert (D' : NoDup (map fst kw')) by (eapply Permutation_NoDup; [apply Permutation_map; exact P|exact D]).
  destruct (lookup n kw) as [v|] eqn:E.
  - symmetry. apply looked_up; [exact D'|]. eapply Permutation_in; [exact P|]. apply looked_up; assumption.
  - symmetry. apply looked_none. apply looked_none in E. intro H. apply E. eapply Permutation_in; [apply Permutation_map, Permutation_sym; exact P|exact H].
Qed.
Lemma keyword_order : forall c pos kw kw', NoDup (map fst kw) -> Permutation kw kw' -> call_class c pos kw = call_class c pos kw'.
Proof.
  intros c pos kw kw' D P. unfold call_class, bind_arguments. destruct (Nat.ltb _ _); [reflexivity|].
  replace (forallb (fun k => existsb (String.eqb (fst k)) (map fst (skipn (length pos) (signature c)))) kw')
    with (forallb (fun k => existsb (String.eqb (fst k)) (map fst (skipn (length pos) (signature c)))) kw).
  - replace (bind_rest kw' (skipn (length pos) (signature c))) with (bind_rest kw (skipn (length pos) (signature c))); [reflexivity|].
    induction (skipn (length pos) (signature c)) as [|p r IH]; [reflexivity|]. cbn. rewrite IH.
    unfold bind_one. rewrite (lookup_order kw kw' (fst p) D P). reflexivity.
  - apply eq_true_iff_eq. rewrite !known_names.
    split; intros H n v I; apply (H n v); eapply Permutation_in; [apply Permutation_sym; exact P|exact I|exact P|exact I].
Qed.

Lemma combined : forall (m : list string) (vs : list argument), length vs = length m -> NoDup m -> exists f, vs = map f m /\ combine m vs = map (fun n => (n, f n)) m.
Proof.
  intros m vs L D.
  exists (fun n => match lookup n (combine m vs) with Some v => v | None => AInt 0 end).
  revert vs L D. induction m as [|n m IH]; intros [|v vs] L D; try discriminate; [auto|]. cbn in L. inversion D; subst.
  cbn. rewrite String.eqb_refl. destruct (IH vs) as [A B]; [lia|assumption|].
  assert (X : forall k, In k m -> String.eqb k n = false).
  { intros k H. apply String.eqb_neq. intros ->. contradiction. }
  split; f_equal.
  - rewrite A at 1. apply map_ext_in. intros k H. rewrite (X k H). reflexivity.
  - rewrite B at 1. apply map_ext_in. intros k H. rewrite (X k H). reflexivity.
Qed.
Lemma all_named : forall c vs, length vs = length (order c) -> call_class c vs [] = call_class c [] (combine (order c) vs).
Proof.
  intros c vs L. destruct (combined (order c) vs L (names_differ c)) as (f & E & E'). unfold call_class.
  assert (N : map fst (map (fun n => (n, f n)) (order c)) = order c) by (rewrite map_map; cbn; apply map_id).
  rewrite E'. rewrite (understood_bound c [] _ f), (understood_bound c vs [] f); [reflexivity| | | | | |].
  - constructor.
  - split; [lia|]. split; [intros n v []|]. intros n I. left. apply In_nth_error in I. destruct I as (i & X). exists i. split; [exact X|].
    rewrite L. apply nth_error_Some. congruence.
  - intros n I. apply In_nth_error in I. destruct I as (i & X). apply at_its_place with i; [exact X|]. rewrite E. apply map_nth_error. exact X.
  - rewrite N. apply names_differ.
  - split; [cbn; lia|]. split.
    + intros n v H. split; [|intros (i & _ & K); cbn in K; lia]. rewrite <- N. change n with (fst (n, v)). apply in_map. exact H.
    + intros n I. right. left. rewrite N. exact I.
  - intros n I. apply with_its_name. apply in_map_iff. exists n. auto.
Qed.
