(** Facts about coroutine objects that are used again and about executers after a failed async_wait. *)
From Coq Require Import String ZArith List Bool Lia PeanoNat Permutation.
From Verif Require Import Base Contexts BaseFacts Gen SpecGen GenFacts SpecAsync AsyncFacts Executer SpecCall ExecFacts
  OsCommon OsWin32 SpecSg SpecDrivers SpecSession Instruct Command SpecDevice SpecCdb SpecExecute ExecuteFacts SpecReserve SpecAdaptive
  SpecConc ConcFacts Left SpecLeft.
Import ListNotations.
Local Open Scope list_scope.
Local Open Scope Z_scope.

(** * Waiting for one object *)
Section One.
Context {S D : Type}.
Implicit Types (g : gen S D) (s : S).

Lemma wait_for_one : forall n m choose g s,
  match loop false n (coroutine_init g) s with
  | Some (s1, Finished r) => async_wait n m choose [g] s = (s1, Some (Ok [r]))
  | Some (s1, Raised e) => async_wait n m choose [g] s = (s1, Some (Err e))
  | _ => True
  end.
Proof.
  intros n m choose g s. destruct (loop false n (coroutine_init g) s) as [[s1 [r|c|e]]|] eqn:L; auto;
    unfold async_wait, keys; cbn [length seq map combine].
  - assert (R : run_ready n [0%nat] [(0%nat, coroutine_init g)] [] s = (s1, Some (Ok ([], [(0%nat, r)])))).
    { cbn [run_ready]. unfold lookup_key. cbn [find fst Nat.eqb option_map snd]. rewrite L. reflexivity. }
    destruct m; cbn [react]; rewrite R; reflexivity.
  - assert (R : run_ready n [0%nat] [(0%nat, coroutine_init g)] [] s = (s1, Some (Err e))).
    { cbn [run_ready]. unfold lookup_key. cbn [find fst Nat.eqb option_map snd]. rewrite L. reflexivity. }
    destruct m; cbn [react]; rewrite R; reflexivity.
Qed.

Lemma spent_end : spent (gen_end (S := S) (D := D)).
Proof.
  intros s n N. destruct n as [|n]; [lia|]. split.
  - unfold sync_wait, coroutine_init. rewrite step_eq. cbn. destruct n; reflexivity.
  - intros m choose. pose proof (wait_for_one (Datatypes.S n) m choose gen_end s) as W.
    assert (L : loop false (Datatypes.S n) (coroutine_init (gen_end (S := S) (D := D))) s = Some (s, Finished (RVal VNone))).
    { unfold coroutine_init. rewrite step_eq. cbn. destruct n; reflexivity. }
    rewrite L in W. exact W.
Qed.

Lemma same_start : forall b n g g' s, (forall s, resume g (Send VNone) s = resume g' (Send VNone) s) ->
  loop b n (coroutine_init g) s = loop b n (coroutine_init g') s.
Proof.
  intros b n g g' s E. destruct n as [|n]; [reflexivity|]. unfold coroutine_init. rewrite !step_eq. unfold next_step.
  cbn [stack args input_of cres]. rewrite E. reflexivity.
Qed.
Lemma start_goes_on : forall g g', (forall s, resume g (Send VNone) s = resume g' (Send VNone) s) -> goes_on_as g g'.
Proof.
  intros g g' E s n. split.
  - unfold sync_wait. rewrite (same_start true n g g' s E). reflexivity.
  - intros m choose. unfold async_wait, keys. cbn [length seq map combine].
    assert (R : run_ready n [0%nat] [(0%nat, coroutine_init g)] [] s = run_ready n [0%nat] [(0%nat, coroutine_init g')] [] s).
    { cbn [run_ready]. unfold lookup_key. cbn [find fst Nat.eqb option_map snd]. rewrite (same_start false n g g' s E).
      destruct (loop false n (coroutine_init g') s) as [[s1 [r|c|e]]|]; reflexivity. }
    destruct m; cbn [react]; rewrite R; reflexivity.
Qed.

(** * After sync_wait *)
Lemma returned_left : forall n c s s1 r, loop true n c s = Some (s1, Finished r) -> object_after n c s = gen_end (S := S) (D := D).
Proof.
  induction n as [|n IH]; intros c s s1 r L; cbn [loop object_after] in *; destruct (stack c); try discriminate L; auto.
  destruct (next_step true c s) as [s2 [c1|c1|e]]; try discriminate L. eapply IH; exact L.
Qed.
Lemma returned_spent : forall n g s s1 r, sync_wait n g s = Some (s1, Returned r) -> spent (sync_wait_left n g s).
Proof.
  intros n g s s1 r H. unfold sync_wait in H. unfold sync_wait_left.
  destruct (loop true n (coroutine_init g) s) as [[s2 [r'|c|e]]|] eqn:L; try discriminate H.
  rewrite (returned_left _ _ _ _ _ L). apply spent_end.
Qed.

Lemma fails_left : forall g a s k s' e, comes_to_fail g a s k s' e -> exists n, forall m r, (n <= m)%nat ->
  loop true m (Cor [g] a r) s = Some (s', Raised e) /\ object_after m (Cor [g] a r) s = k.
Proof.
  intros g a s k s' e C. induction C as [g a s s1 t k s2 e E F|g a s s1 v g1 k s' e E C [n IH]|g a s s1 t g1 s2 v k s' e E F C [n IH]].
  - exists 1%nat. intros m r L. destruct m as [|m]; [lia|]. cbn [loop object_after stack]. unfold next_step. cbn [stack args cres]. rewrite E, F.
    cbn [unwind]. auto.
  - exists (Datatypes.S n). intros m r L. destruct m as [|m]; [lia|]. cbn [loop object_after stack]. unfold next_step. cbn [stack args cres].
    rewrite E. apply IH. lia.
  - exists (Datatypes.S n). intros m r L. destruct m as [|m]; [lia|]. cbn [loop object_after stack]. unfold next_step. cbn [stack args cres].
    rewrite E, F. apply IH. lia.
Qed.
Lemma token_left : forall g s k s' e, comes_to_fail g VNone s k s' e -> exists n, forall m, (n <= m)%nat ->
  sync_wait m g s = Some (s', Threw e) /\ sync_wait_left m g s = k.
Proof.
  intros g s k s' e C. destruct (fails_left _ _ _ _ _ _ C) as [n X]. exists n. intros m L.
  destruct (X m (RVal VNone) L) as [A B]. unfold sync_wait, sync_wait_left, coroutine_init. rewrite A. auto.
Qed.

(** * The stack below *)
Lemma below : forall b pre g base (a : val D) r s,
  exists s1, (exists pre' a' r', next_step b (Cor (g :: pre ++ [base]) a r) s = (s1, Continue (Cor (pre' ++ [base]) a' r'))) \/
    (exists g' pre' a' r', b = false /\ next_step b (Cor (g :: pre ++ [base]) a r) s = (s1, Suspend (Cor ((g' :: pre') ++ [base]) a' r'))).
Proof.
  intros b pre g base a r s. unfold next_step. cbn [stack args cres].
  assert (U : forall s1 r' e, exists s2, (exists pre' a' r'', (s1, unwind (pre ++ [base]) r' e) = (s2, Continue (Cor (pre' ++ [base]) a' r''))) \/
     (exists g' pre' a' r'', b = false /\ (s1, unwind (pre ++ [base]) r' e) = (s2, Suspend (Cor ((g' :: pre') ++ [base]) a' r'')))).
  { intros s1 r' e. exists s1. left. exists pre. unfold unwind. destruct (pre ++ [base]) eqn:P; [destruct pre; discriminate P|]. eauto. }
  destruct (resume g (input_of a) s) as [s1 [|e|[v|ch|t] k]].
  - exists s1. left. exists pre. eauto.
  - apply U.
  - exists s1. left. exists (k :: pre). eauto.
  - exists s1. left. exists (ch :: k :: pre). eauto.
  - destruct b.
    + destruct (t s1) as [s2 [v|e]]; [|apply U]. exists s2. left. exists (k :: pre). eauto.
    + exists s1. right. exists k, pre. eauto.
Qed.

(** Objects that call, and then yield a value or raise: [waiting g] are the states of [g] while it waits for what it has called. *)
Definition calls_only (start waiting : gen S D -> Prop) : Prop :=
  forall g i s, start g \/ waiting g ->
    (exists s1 e, resume g i s = (s1, Raise e)) \/
    (exists s1 v, resume g i s = (s1, Yield (YVal v) gen_end)) \/
    (exists s1 c k, resume g i s = (s1, Yield (YGen c) k) /\ waiting k).

Section Calls.
Context (start waiting : gen S D -> Prop) (C : calls_only start waiting).

Definition on_stack (c : cor S D) : Prop :=
  (exists g, start g /\ stack c = [g]) \/ (exists g pre, waiting g /\ stack c = pre ++ [g]) \/ stack c = [gen_end] \/ stack c = [].

Lemma stack_step : forall b c s, on_stack c -> stack c <> [] ->
  match next_step b c s with
  | (_, Continue c1) => on_stack c1
  | (_, Suspend c1) => b = false /\ exists g pre, waiting g /\ stack c1 = pre ++ [g]
  | (_, Escape _) => match resume (hd gen_end (stack c)) (input_of (args c)) s with (_, Yield _ _) => False | _ => True end
  end.
Proof.
  intros b [st a r] s O N. unfold on_stack in O. cbn [stack] in *.
  assert (X : forall g, start g \/ waiting g -> st = [g] ->
    match next_step b (Cor st a r) s with
    | (_, Continue c1) => on_stack c1
    | (_, Suspend c1) => b = false /\ exists g pre, waiting g /\ stack c1 = pre ++ [g]
    | (_, Escape _) => match resume (hd gen_end (stack (Cor st a r))) (input_of a) s with (_, Yield _ _) => False | _ => True end
    end).
  { intros g G ->. cbn [stack hd]. unfold next_step. cbn [stack args cres].
    destruct (C g (input_of a) s G) as [(s2 & e & E) | [(s2 & v & E)|(s2 & c & k & E & K)]]; rewrite E; cbn [unwind].
    - exact Logic.I.
    - unfold on_stack. cbn [stack]. auto.
    - unfold on_stack. cbn [stack]. right. left. exists k, [c]. auto. }
  destruct O as [(g & G & ->) | [(g & pre & G & ->) | [-> | ->]]].
  - apply (X g); auto.
  - destruct pre as [|g0 pre]; [apply (X g); auto|]. cbn [app].
    destruct (below b pre g0 g a r s) as (s2 & [(pre' & a' & r' & E)|(g' & pre' & a' & r' & -> & E)]); rewrite E.
    + unfold on_stack. cbn [stack]. right. left. eauto.
    + split; [reflexivity|]. exists g, (g' :: pre'). auto.
  - unfold next_step. cbn [stack args cres hd resume gen_end]. destruct (input_of a); cbn [unwind]; [|exact Logic.I].
    unfold on_stack. cbn [stack]. auto.
  - congruence.
Qed.

Lemma blocked_on_stack : forall n c s s1 c1, on_stack c -> loop false n c s = Some (s1, Blocked c1) ->
  exists g pre, waiting g /\ stack c1 = pre ++ [g].
Proof.
  induction n as [|n IH]; intros c s s1 c1 O L; cbn [loop] in L; destruct (stack c) eqn:E; try discriminate L.
  assert (N : stack c <> []) by congruence.
  pose proof (stack_step false c s O N) as St. destruct (next_step false c s) as [s2 [c2|c2|e]]; try discriminate L.
  - eapply IH; eassumption.
  - injection L as <- <-. tauto.
Qed.

Lemma always_left : forall n c s x, on_stack c -> loop true n c s = Some x -> object_after n c s = gen_end.
Proof.
  induction n as [|n IH]; intros c s x O L; cbn [loop object_after] in *; destruct (stack c) as [|g0 st] eqn:E; try discriminate L; auto.
  assert (N : stack c <> []) by congruence.
  pose proof (stack_step true c s O N) as St. rewrite E in St. cbn [hd] in St. destruct (next_step true c s) as [s2 [c2|c2|e]].
  - eapply IH; eassumption.
  - destruct St as [St _]. discriminate St.
  - destruct (resume g0 (input_of (args c)) s) as [s3 [|e'|y k]]; [reflexivity|reflexivity|contradiction].
Qed.
Lemma sync_left : forall n g s x, start g -> sync_wait n g s = Some x -> spent (sync_wait_left n g s).
Proof.
  intros n g s x G X. unfold sync_wait in X. unfold sync_wait_left.
  destruct (loop true n (coroutine_init g) s) as [y|] eqn:L; [|discriminate X].
  assert (O : on_stack (coroutine_init g)) by (left; exists g; auto).
  rewrite (always_left _ _ _ _ O L). apply spent_end.
Qed.
End Calls.

(** * After async_wait *)

(** Coroutines in the table. *)
Inductive reached (g : gen S D) : cor S D -> Prop :=
| reached_start : reached g (coroutine_init g)
| reached_block : forall n c s s1 c1, reached g c -> loop false n c s = Some (s1, Blocked c1) -> reached g c1
| reached_io : forall c s s1 c1, reached g c -> async_io_complete c s = (s1, Ok c1) -> reached g c1.

Definition table_ok (gs : list (gen S D)) (tbl : table) : Prop :=
  forall i c, lookup_key i tbl = Some c -> exists g, nth_error gs i = Some g /\ reached g c.

Lemma table_remove : forall gs tbl k, table_ok gs tbl -> table_ok gs (remove_key k tbl).
Proof.
  intros gs tbl k T i c L. destruct (Nat.eq_dec i k) as [->|N]; [rewrite lookup_remove_eq in L; discriminate L|].
  rewrite lookup_remove_neq in L by exact N. apply T. exact L.
Qed.
Lemma table_update : forall gs tbl k c c1, table_ok gs tbl -> lookup_key k tbl = Some c -> (forall g, reached g c -> reached g c1) ->
  table_ok gs (update_key k c1 tbl).
Proof.
  intros gs tbl k c c1 T K R i c' L. destruct (Nat.eq_dec i k) as [->|N].
  - rewrite (lookup_update_eq _ _ _ _ K) in L. injection L as <-. destruct (T k c K) as (g & G & Rg). eauto.
  - rewrite lookup_update_neq in L by exact N. apply T. exact L.
Qed.
Lemma run_ready_table : forall gs n cmds tbl done s, table_ok gs tbl ->
  table_ok gs (run_ready_left n cmds tbl s) /\
  (forall s1 tbl1 done1, run_ready n cmds tbl done s = (s1, Some (Ok (tbl1, done1))) -> table_ok gs tbl1).
Proof.
  intros gs n. induction cmds as [|k r IH]; intros tbl done s T; cbn [run_ready_left run_ready].
  - split; [exact T|]. intros s1 tbl1 done1 [= <- <- <-]. exact T.
  - destruct (lookup_key k tbl) as [c|] eqn:K; [|split; [exact T|discriminate]].
    destruct (loop false n c s) as [[s1 [v|c1|e]]|] eqn:L.
    + apply IH. apply table_remove. exact T.
    + apply IH. eapply table_update; [exact T|exact K|]. intros g G. eapply reached_block; eassumption.
    + split; [apply table_remove; exact T|discriminate].
    + split; [exact T|discriminate].
Qed.
Lemma react_table : forall gs n choose m cmds tbl done s, table_ok gs tbl -> table_ok gs (react_left n m choose cmds tbl done s).
Proof.
  intros gs n choose. induction m as [|m IH]; intros cmds tbl done s T; cbn [react_left];
    destruct (run_ready_table gs n cmds tbl done s T) as [T1 T2];
    destruct (run_ready n cmds tbl done s) as [s1 [[[tbl1 done1]|e]|]]; auto;
    specialize (T2 s1 tbl1 done1 eq_refl); destruct tbl1 as [|x y] eqn:Y; auto; rewrite <- Y in *.
  cbv zeta. destruct (lookup_key (choose m (map fst tbl1)) tbl1) as [c|] eqn:K; auto.
  destruct (async_io_complete c s1) as [s2 [c1|e]] eqn:I; auto.
  apply IH. eapply table_update; [exact T2|exact K|]. intros g G. eapply reached_io; eassumption.
Qed.
Lemma first_table : forall gs, table_ok gs (combine (keys gs) (map coroutine_init gs)).
Proof.
  intros gs i c L. unfold keys in L.
  assert (X : forall j, lookup_key i (combine (seq j (length gs)) (map coroutine_init gs)) = Some c ->
    (j <= i)%nat /\ exists g, nth_error gs (i - j) = Some g /\ c = coroutine_init g).
  { clear L. induction gs as [|g gs IH]; intros j L; [discriminate L|]. cbn [length seq map combine] in L.
    unfold lookup_key in L. cbn [find fst] in L. destruct (Nat.eqb_spec j i) as [Ej|N].
    - subst j. cbn in L. injection L as <-. rewrite Nat.sub_diag. split; [lia|]. exists g. auto.
    - destruct (IH (Datatypes.S j) L) as (J & g' & G & ->). split; [lia|]. exists g'.
      replace (i - j)%nat with (Datatypes.S (i - Datatypes.S j)) by lia. auto. }
  destruct (X 0%nat L) as (_ & g & G & ->). rewrite Nat.sub_0_r in G. exists g. split; [exact G|constructor].
Qed.
Lemma left_table : forall n m choose gs s, table_ok gs (async_wait_left n m choose gs s).
Proof. intros. apply react_table. apply first_table. Qed.

Lemma reached_calls : forall start waiting g c, calls_only start waiting -> start g -> reached g c ->
  c = coroutine_init g \/ (exists k pre, waiting k /\ stack c = pre ++ [k]).
Proof.
  intros start waiting g c C G R. induction R as [|n c s s1 c1 R IH L|c s s1 c1 R IH I].
  - auto.
  - right. eapply blocked_on_stack; [exact C| |exact L].
    destruct IH as [->|(k & pre & K & E)]; [left; exists g; auto|]. right. left. eauto.
  - right. unfold async_io_complete in I. destruct IH as [->|(k & pre & K & E)].
    + cbn in I. discriminate I.
    + destruct (cres c) as [v|g'|t]; try discriminate I. destruct (t s) as [s2 [v|e]]; [|discriminate I].
      injection I as <- <-. cbn [stack]. eauto.
Qed.

Lemma left_calls : forall start waiting n m choose gs s i g, calls_only start waiting -> nth_error gs i = Some g -> start g ->
  let g' := argument_left i (async_wait_left n m choose gs s) in
  g' = gen_end \/ g' = g \/ waiting g'.
Proof.
  intros start waiting n m choose gs s i g C N G g'. unfold g', argument_left.
  destruct (lookup_key i (async_wait_left n m choose gs s)) as [c|] eqn:L; [|auto].
  destruct (left_table n m choose gs s i c L) as (g0 & N0 & R). rewrite N in N0. injection N0 as <-.
  destruct (reached_calls start waiting g c C G R) as [->|(k & pre & K & E)]; [auto|].
  unfold object_of. rewrite E, last_last. auto.
Qed.

(** All arguments have ended when async_wait returns. *)
Lemma react_done : forall n choose m cmds tbl done s s1 rs, react (S := S) (D := D) n m choose cmds tbl done s = (s1, RDone rs) ->
  react_left n m choose cmds tbl done s = [].
Proof.
  intros n choose. induction m as [|m IH]; intros cmds tbl done s s1 rs; cbn [react react_left];
    destruct (run_ready n cmds tbl done s) as [s2 [[[tbl1 done1]|e]|]]; try discriminate; destruct tbl1 as [|x y] eqn:Y; auto; try discriminate.
  cbv zeta. destruct (lookup_key _ (x :: y)) as [c|]; [|discriminate].
  destruct (async_io_complete c s2) as [s3 [c1|e]]; [|discriminate]. apply IH.
Qed.
Lemma all_ended : forall n m choose gs s s1 l i, async_wait n m choose gs s = (s1, Some (Ok l)) ->
  spent (argument_left (S := S) (D := D) i (async_wait_left n m choose gs s)).
Proof.
  intros n m choose gs s s1 l i H. unfold async_wait in H. unfold async_wait_left.
  destruct (react n m choose (keys gs) (combine (keys gs) (map coroutine_init gs)) [] s) as [s2 [rs|e|]] eqn:R; try discriminate H.
  rewrite (react_done _ _ _ _ _ _ _ _ _ R). apply spent_end.
Qed.
End One.

Section Elsewhere.
Context {S D : Type}.
Lemma elsewhere : forall p n m choose (gs : list (gen S D)) s,
  (p <> PWindows -> async_wait_on p n m choose gs s = (s, Some (Err EAsiGeneric)) /\ objects_left_on p n m choose gs s = gs) /\
  async_wait_on PWindows n m choose gs s = async_wait n m choose gs s /\
  forall i g, nth_error gs i = Some g ->
    nth_error (objects_left_on PWindows n m choose gs s) i = Some (argument_left i (async_wait_left n m choose gs s)).
Proof.
  intros p n m choose gs s. split; [|split].
  - intro P. destruct p; [congruence| | | |]; split; reflexivity.
  - reflexivity.
  - intros i g N. cbn [objects_left_on create_os_async_reactor].
    apply (map_nth_error (fun i => argument_left i (async_wait_left n m choose gs s))). unfold keys.
    assert (L : (i < length gs)%nat) by (apply nth_error_Some; congruence).
    rewrite (nth_error_nth' (seq 0 (length gs)) 0%nat) by (rewrite seq_length; exact L). rewrite seq_nth by exact L. reflexivity.
Qed.
End Elsewhere.

(** * Commands *)
Section Commands.
Context {R W H : Type} (os : os_layer R W (wire H pyval) scsi_command).

Lemma execute_calls : forall me o, calls_only (fun g => g = execute os me o) (fun g => g = execute_rest o).
Proof.
  intros me o g i s [->| ->].
  - destruct i as [v|e]; cbn [execute resume]; [|eauto]. destruct (request o) as [c|e]; [|eauto]. right. right. eauto 6.
  - destruct i as [v|e]; cbn [execute_rest resume]; [|eauto]. destruct (result_datagram v) as [d|]; [|eauto].
    destruct (o_finish o (o_attrs o) d); eauto.
Qed.

Lemma rest_only_gives : forall o, only_gives (execute_rest (R := R) (W := W) (H := H) o)
  (match o_finish o (o_attrs o) None with Ok v => Ok (yielded_value v) | Err e => Err e end).
Proof.
  intros o s n N. destruct n as [|[|[|n]]]; try lia.
  assert (L : forall b, loop b (Datatypes.S (Datatypes.S (Datatypes.S n))) (coroutine_init (execute_rest (R := R) (W := W) (H := H) o)) s =
    Some (s, match o_finish o (o_attrs o) None with Ok v => Finished (RVal (yielded_value v)) | Err e => Raised e end)).
  { intro b. unfold coroutine_init. rewrite step_eq. unfold next_step. cbn [stack args cres input_of resume execute_rest result_datagram].
    destruct (o_finish o (o_attrs o) None) as [v|e]; [|reflexivity].
    rewrite step_eq. unfold next_step. cbn [stack args cres]. rewrite (input_of_not_exn (yielded_value v)) by apply yielded_not_exn.
    cbn [resume gen_end]. reflexivity. }
  split.
  - unfold sync_wait. rewrite L. destruct (o_finish o (o_attrs o) None); reflexivity.
  - intros m choose. pose proof (wait_for_one (Datatypes.S (Datatypes.S (Datatypes.S n))) m choose (execute_rest (R := R) (W := W) (H := H) o) s) as X.
    rewrite L in X. destruct (o_finish o (o_attrs o) None); exact X.
Qed.

Lemma command_spent : forall me o n s x, sync_wait n (execute os me o) s = Some x -> spent (sync_wait_left n (execute os me o) s).
Proof. intros. eapply (sync_left _ _ (execute_calls me o)); [reflexivity|eassumption]. Qed.

Lemma command_left : forall n m choose gs s i me o, nth_error gs i = Some (execute os me o) ->
  let g := argument_left i (async_wait_left n m choose gs s) in
  spent g \/ g = execute os me o \/
  only_gives g (match o_finish o (o_attrs o) None with Ok v => Ok (yielded_value v) | Err e => Err e end).
Proof.
  intros n m choose gs s i me o N g.
  destruct (left_calls _ _ n m choose gs s i _ (execute_calls me o) N eq_refl) as [E|[E|E]]; fold g in E; rewrite E.
  - left. apply spent_end.
  - auto.
  - right. right. apply rest_only_gives.
Qed.

(** * Programs *)
Definition waits_for (next : result pyval -> prog) : gen (executer R W) (dval (wire H pyval)) :=
  Gen (fun i s => resume (coroutine os (next (caught i))) i s).

Lemma program_step : forall p i s,
  (exists s1 e, resume (coroutine os p) i s = (s1, Raise e)) \/
  (exists s1 v, resume (coroutine os p) i s = (s1, Yield (YVal v) gen_end)) \/
  (exists s1 c next, resume (coroutine os p) i s = (s1, Yield (YGen c) (waits_for next)) /\ continues p next).
Proof.
  induction p as [v|e|c next IH|q IHq next IH]; intros i s; cbn [coroutine resume].
  - right. left. eauto.
  - eauto.
  - destruct (constructed c) as [o|e].
    + right. right. do 3 eexists. split; [reflexivity|constructor].
    + destruct (IH (Err e) i s) as [X|[X|(s1 & c1 & next1 & E & K)]]; auto. right. right. do 3 eexists.
      split; [exact E|]. eapply continues_later; exact K.
  - right. right. do 3 eexists. split; [reflexivity|constructor].
Qed.
Lemma continues_then : forall p next, continues p next -> forall r next', continues (next r) next' -> continues p next'.
Proof. induction 1; intros; eauto using continues_later, continues_after. Qed.

Lemma program_calls : forall p, calls_only (fun g => g = coroutine os p) (fun g => exists next, continues p next /\ g = waits_for next).
Proof.
  intros p g i s [->|(next & K & ->)].
  - destruct (program_step p i s) as [X|[X|(s1 & c & next & E & K)]]; auto. right. right. eauto 8.
  - cbn [waits_for resume]. destruct (program_step (next (caught i)) i s) as [X|[X|(s1 & c & next' & E & K')]]; auto.
    right. right. exists s1, c, (waits_for next'). split; [exact E|]. exists next'. split; [|reflexivity]. eapply continues_then; eassumption.
Qed.

Lemma program_spent : forall p n s x, sync_wait n (coroutine os p) s = Some x -> spent (sync_wait_left n (coroutine os p) s).
Proof. intros. eapply (sync_left _ _ (program_calls p)); [reflexivity|eassumption]. Qed.

Lemma program_left : forall n m choose gs s i p, nth_error gs i = Some (coroutine os p) ->
  let g := argument_left i (async_wait_left n m choose gs s) in
  spent g \/ g = coroutine os p \/
  exists next, continues p next /\ goes_on_as g (coroutine os (next (Ok PNone))).
Proof.
  intros n m choose gs s i p N g.
  destruct (left_calls _ _ n m choose gs s i _ (program_calls p) N eq_refl) as [E|[E|(next & K & E)]]; fold g in E; rewrite E.
  - left. apply spent_end.
  - auto.
  - right. right. exists next. split; [exact K|]. apply start_goes_on. intro s'. reflexivity.
Qed.
End Commands.

(** * Windows *)
Section Windows.
Context {T A : Type} (sense_of : bytes -> result unit) (tgt : target T).
Notation ex := (executer spt (win_world T)).
Notation suspended := (suspended (A := A) sense_of tgt).

Lemma in_dict : forall X (l : list (Z * X)) k, In k (map fst l) -> exists v, dict_get k l = Some v.
Proof.
  induction l as [|[j v] l IH]; intros k I; [contradiction|]. cbn in *. destruct (Z.eqb_spec j k); [eauto|].
  apply IH. tauto.
Qed.
Lemma del_perm : forall X (l l' : list (Z * X)) k v, NoDup (map fst l) -> Permutation l ((k, v) :: l') -> Permutation (dict_del k l) l'.
Proof.
  induction l as [|[j x] l IH]; intros l' k v N P; [apply Permutation_nil in P; discriminate P|].
  cbn [dict_del]. cbn [map fst] in N. inversion N as [|? ? Nj Nl]; subst. destruct (Z.eqb_spec j k) as [->|E].
  - assert (I : In (k, v) ((k, x) :: l)) by (eapply Permutation_in; [apply Permutation_sym; exact P|left; reflexivity]).
    destruct I as [I|I]; [|exfalso; apply Nj; apply (in_map fst) in I; exact I]. injection I as ->.
    eapply Permutation_cons_inv. exact P.
  - assert (I : In (j, x) l').
    { assert (J : In (j, x) ((k, v) :: l')) by (eapply Permutation_in; [exact P|left; reflexivity]).
      destruct J as [J|J]; [congruence|exact J]. }
    apply in_split in I. destruct I as (l1 & l2 & ->).
    eapply Permutation_trans; [apply perm_skip; apply (IH (l1 ++ l2) k v Nl)|apply Permutation_middle].
    apply (Permutation_cons_inv (a := (j, x))). eapply Permutation_trans; [exact P|].
    change ((k, v) :: l1 ++ (j, x) :: l2) with (((k, v) :: l1) ++ (j, x) :: l2). apply Permutation_sym, (Permutation_middle ((k, v) :: l1)).
Qed.

Lemma drop_suspended : forall exit w (s : ex), In (w_idx w) (map fst (pending s)) ->
  drop exit (suspended w) s = with_pending s (dict_del (w_idx w) (pending s)).
Proof.
  intros exit w s I. destruct (in_dict _ _ _ I) as [v E]. unfold drop, ConcFacts.suspended, close. cbn [stack removelast fold_left].
  cbn [resume gen_end win_send_append send_tail fst]. unfold send_abort. rewrite E. reflexivity.
Qed.

Lemma drop_waiters : forall exit l (s : ex), NoDup (map w_idx l) -> NoDup (map fst (pending s)) -> Permutation (pending s) (map w_pending l) ->
  drop_all exit (map suspended l) s = with_pending s [].
Proof.
  intros exit. induction l as [|w l IH]; intros s N Np P; cbn [map drop_all fold_left].
  - apply Permutation_sym, Permutation_nil in P. destruct s. cbn in *. subst. reflexivity.
  - rewrite drop_suspended.
    + set (s1 := with_pending s (dict_del (w_idx w) (pending s))).
      assert (P1 : Permutation (pending s1) (map w_pending l)).
      { cbn [s1 pending with_pending]. eapply del_perm; [exact Np|]. exact P. }
      assert (D : drop_all exit (map suspended l) s1 = with_pending s1 []).
      { apply IH; [inversion N; assumption| |exact P1].
        apply (Permutation_map fst) in P1. apply (Permutation_NoDup (Permutation_sym P1)).
        rewrite map_map. inversion N; assumption. }
      unfold drop_all in D. rewrite D. reflexivity.
    + apply (Permutation_map fst) in P. eapply Permutation_in; [apply Permutation_sym; exact P|]. left. reflexivity.
Qed.

Lemma aborted : forall (s : ex) (mcs : list (nat * scsi_command)) choose n m t' e,
  pending s = [] -> incoming_packets (world s) = [] ->
  0 <= packet_index s < max_queue_size s -> zlen mcs <= max_queue_size s ->
  NoDup (map fst mcs) -> (forall me, In me (map fst mcs) -> ~ In me (map fst (cb_log s))) ->
  Forall win_fits (map snd mcs) -> fair_choice choose -> intelligible tgt sense_of ->
  (20 <= n)%nat -> (length mcs <= m)%nat ->
  let order := signalled m choose (seq 0 (length mcs)) in
  let calls := map (fun p => call (win_async_os (A := A) sense_of (honest_win tgt)) (fst p) (snd p)) mcs in
  serve tgt (map snd mcs) order (w_dev (world s)) = (t', Err e) ->
  exists s', async_wait n m choose calls s = (s', Some (Err e)) /\
    (length (pending s') + answered tgt (map snd mcs) order (w_dev (world s)) = length mcs)%nat /\
    forall exit left, Permutation left (map snd (async_wait_left n m choose calls s)) ->
      let s'' := drop_all exit left s' in
      pending s'' = [] /\ incoming_packets (world s'') = [] /\ w_dev (world s'') = t' /\
      max_queue_size s'' = max_queue_size s /\ 0 <= packet_index s'' < max_queue_size s.
Proof.
  intros s mcs choose n m t' e H1 H2 H3 H4 H5 H6 H7 H8 H9 H10 H11 order calls Sv.
  destruct (async_calls_left (A := A) sense_of tgt s mcs choose n m H1 H2 H3 H4 H5 H6 H7 H8 H9 H10 H11) as [_ X].
  fold order in X. rewrite Sv in X. destruct X as (s' & l & X1 & X2 & X3 & X4 & X5 & X6 & X7 & X8).
  exists s'. split; [exact X1|]. destruct X4 as [P I V Ap L]. split.
  - rewrite P, map_length. exact X5.
  - intros exit left Pl. unfold calls in Pl. unfold calls_of in X3. rewrite X3, map_map in Pl. cbn [entry snd] in Pl.
    apply Permutation_map_inv in Pl. destruct Pl as (l' & -> & Pl). destruct Ap as (_ & _ & Ai & _).
    assert (D : drop_all exit (map suspended l') s' = with_pending s' []).
    { apply drop_waiters.
      - apply (Permutation_NoDup (Permutation_map w_idx Pl)). exact Ai.
      - rewrite P, map_map. exact Ai.
      - rewrite P. apply Permutation_map. exact Pl. }
    cbv zeta. change (fun x : waiter => suspended x) with suspended. rewrite D. cbn [pending with_pending world max_queue_size packet_index].
    rewrite X2. auto.
Qed.
End Windows.
