(** Invariants through the coroutine drivers; calls that yield nothing. *)
From Coq Require Import ZArith List Bool Lia.
From Verif Require Import Base Gen SpecGen GenFacts Executer SpecExec ExecFacts SpecCall ExecGenFacts.
Import ListNotations.

Section Keep.
Context {S D : Type}.
Variable I : S -> Prop.
Implicit Types (g : gen S D) (s : S).

Definition res_ok (r : res S D) : Prop :=
  match r with RTok t => forall s, I s -> I (fst (t s)) | _ => True end.
Definition cor_ok (c : cor S D) : Prop := Forall (keeps I) (stack c) /\ res_ok (cres c).

Lemma next_step_keeps : forall b c s s1 o, cor_ok c -> I s -> next_step b c s = (s1, o) ->
  I s1 /\ match o with Continue c1 => cor_ok c1 | Suspend c1 => cor_ok c1 | Escape _ => True end.
Proof.
  intros b c s s1 o [Hst Hr] Hs H. unfold next_step in H.
  destruct (stack c) as [|g rest] eqn:E.
  { inversion H; subst; auto. }
  inversion Hst as [|? ? Hg Hrest]; subst. destruct Hg as [K1 K2 K3 K4 K5].
  destruct (resume g (input_of (args c)) s) as [s2 ev] eqn:R.
  destruct ev as [|e|[v|ch|t] k].
  - inversion H; subst. split; [eauto|]. split; auto.
  - inversion H; subst. split; [eauto|]. unfold unwind. destruct rest; auto. split; auto.
  - destruct (K3 _ _ _ _ _ Hs R). inversion H; subst. split; auto. split; simpl; auto.
  - destruct (K4 _ _ _ _ _ Hs R) as [? [? ?]]. inversion H; subst. split; auto. split; simpl; auto.
  - destruct (K5 _ _ _ _ _ Hs R) as [? [? ?]]. destruct b.
    + specialize (H1 s2 H0) as Ht. destruct (t s2) as [s3 [v|e]]; inversion H; subst; split; auto.
      * split; simpl; auto.
      * unfold unwind. destruct rest; auto. split; simpl; auto.
    + inversion H; subst. split; auto. split; simpl; auto.
Qed.

Lemma loop_keeps : forall b n c s s1 o, cor_ok c -> I s -> loop b n c s = Some (s1, o) ->
  I s1 /\ match o with Blocked c1 => cor_ok c1 | _ => True end.
Proof.
  induction n; intros c s s1 o Hc Hs H; simpl in H.
  - destruct (stack c); inversion H; subst; auto.
  - destruct (stack c) eqn:E; [inversion H; subst; auto|].
    destruct (next_step b c s) as [s2 o2] eqn:N.
    destruct (next_step_keeps _ _ _ _ _ Hc Hs N) as [H2 H3].
    destruct o2; [eapply IHn; eauto|inversion H; subst; auto|inversion H; subst; auto].
Qed.

Theorem sync_wait_keeps : forall n g s s' o, keeps I g -> I s ->
  sync_wait n g s = Some (s', o) -> I s'.
Proof.
  intros n g s s' o Hg Hs H. unfold sync_wait in H.
  destruct (loop true n (coroutine_init g) s) as [[s1 l]|] eqn:E; [|discriminate].
  assert (cor_ok (coroutine_init g)) by (split; simpl; auto).
  destruct (loop_keeps _ _ _ _ _ _ H0 Hs E) as [H1 _].
  destruct l; inversion H; subst; auto.
Qed.

Lemma lookup_ok : forall k (tbl : table (S := S) (D := D)) c,
  Forall (fun p => cor_ok (snd p)) tbl -> lookup_key k tbl = Some c -> cor_ok c.
Proof.
  intros k tbl c HF H. unfold lookup_key in H.
  destruct (find (fun p => Nat.eqb (fst p) k) tbl) as [p|] eqn:E; [|discriminate].
  inversion H; subst. apply find_some in E as [E _]. rewrite Forall_forall in HF. apply HF; auto.
Qed.

Lemma update_ok : forall k (tbl : table (S := S) (D := D)) c,
  Forall (fun p => cor_ok (snd p)) tbl -> cor_ok c -> Forall (fun p => cor_ok (snd p)) (update_key k c tbl).
Proof.
  intros. unfold update_key. rewrite Forall_forall in *. intros p Hp.
  apply in_map_iff in Hp as [q [Hq Hin]]. subst. destruct (Nat.eqb (fst q) k); simpl; auto.
Qed.

Lemma remove_ok : forall k (tbl : table (S := S) (D := D)),
  Forall (fun p => cor_ok (snd p)) tbl -> Forall (fun p => cor_ok (snd p)) (remove_key k tbl).
Proof.
  intros. unfold remove_key. rewrite Forall_forall in *. intros p Hp.
  apply filter_In in Hp as [Hp _]. auto.
Qed.

Lemma run_ready_keeps : forall n cmds tbl done s s1 o,
  Forall (fun p => cor_ok (snd p)) tbl -> I s -> run_ready n cmds tbl done s = (s1, o) ->
  I s1 /\ match o with Some (Ok (t, _)) => Forall (fun p => cor_ok (snd p)) t | _ => True end.
Proof.
  induction cmds; intros tbl done s s1 o HF Hs H; simpl in H.
  - inversion H; subst; auto.
  - destruct (lookup_key a tbl) as [c|] eqn:L; [|inversion H; subst; auto].
    assert (Hc : cor_ok c) by (eapply lookup_ok; eauto).
    destruct (loop false n c s) as [[s2 l]|] eqn:E; [|inversion H; subst; auto].
    destruct (loop_keeps _ _ _ _ _ _ Hc Hs E) as [H2 H3].
    destruct l.
    + eapply IHcmds; [|exact H2|exact H]. apply remove_ok; auto.
    + eapply IHcmds; [|exact H2|exact H]. apply update_ok; auto.
    + inversion H; subst; auto.
Qed.

Lemma react_keeps : forall n m choose cmds tbl done s s1 o,
  Forall (fun p => cor_ok (snd p)) tbl -> I s ->
  react n m choose cmds tbl done s = (s1, o) -> I s1.
Proof.
  induction m; intros choose cmds tbl done s s1 o HF Hs H; simpl in H;
    destruct (run_ready n cmds tbl done s) as [s2 r] eqn:E;
    destruct (run_ready_keeps _ _ _ _ _ _ _ HF Hs E) as [H2 H3];
    destruct r as [[[t d]|e]|]; try (inversion H; subst; auto; fail).
  - destruct t; inversion H; subst; auto.
  - destruct t as [|p t]; [inversion H; subst; auto|].
    remember (p :: t) as tb.
    destruct (lookup_key (choose m (map fst tb)) tb) as [c|] eqn:L; [|inversion H; subst; auto].
    assert (Hc : cor_ok c) by (eapply lookup_ok; eauto).
    unfold async_io_complete in H. destruct Hc as [Hst Hr].
    destruct (cres c) as [| |t0] eqn:R; try (inversion H; subst; auto; fail).
    simpl in Hr. specialize (Hr s2 H2) as Ht. destruct (t0 s2) as [s3 [v|e]].
    + eapply IHm; [|exact Ht|exact H]. apply update_ok; auto. split; simpl; auto.
    + inversion H; subst; auto.
Qed.

Theorem async_wait_keeps : forall n m choose (cmds : list (gen S D)) s s' o, Forall (keeps I) cmds -> I s ->
  async_wait n m choose cmds s = (s', o) -> I s'.
Proof.
  intros n m choose cmds s s' o HF Hs H. unfold async_wait in H.
  destruct (react n m choose (keys cmds) (combine (keys cmds) (map coroutine_init cmds)) [] s) as [s1 r] eqn:E.
  assert (HT : Forall (fun p => cor_ok (snd p)) (combine (keys cmds) (map coroutine_init cmds))).
  { rewrite Forall_forall in *. intros [k c] Hp. apply in_combine_r in Hp. simpl.
    apply in_map_iff in Hp as [g [Hg Hin]]. subst. split; simpl; auto. }
  pose proof (react_keeps _ _ _ _ _ _ _ _ _ HT Hs E). destruct r; inversion H; subst; auto.
Qed.

Theorem evaluates_keeps : forall g i p s s' o, evaluates g i p s s' o -> keeps I g -> I s -> I s'.
Proof.
  induction 1; intros [K1 K2 K3 K4 K5] Hs; eauto.
  - destruct (K3 _ _ _ _ _ Hs H); auto.
  - destruct (K4 _ _ _ _ _ Hs H) as [? [? ?]]; auto.
  - destruct (K4 _ _ _ _ _ Hs H) as [? [? ?]]; auto.
  - destruct (K5 _ _ _ _ _ Hs H) as [? [Ht ?]]. apply IHevaluates; auto.
    specialize (Ht s1 H3). rewrite H0 in Ht. auto.
Qed.

End Keep.

Section Leak.
Context {S D : Type}.
Implicit Types (g : gen S D) (s : S).

Lemma leak_loop : forall g i s c s1 k, reaches_call g i s c s1 k ->
  forall s2 s3, resume c (Send VNone) s1 = (s2, Stop) -> resume k (Send VNone) s2 = (s3, Stop) ->
  forall a r rest, input_of a = i ->
  exists j, forall n, loop true (j + n) (Cor (g :: rest) a r) s = loop true n (Cor rest VNone (RGen c)) s3.
Proof.
  induction 1; intros s2' s3' Hc Hk a r rest Hi.
  - exists 3%nat. intros n. change (3 + n)%nat with (Datatypes.S (Datatypes.S (Datatypes.S n))).
    rewrite step_eq. unfold next_step at 1; cbn [stack args]. rewrite Hi, H.
    rewrite step_eq. unfold next_step at 1; cbn [stack args input_of]. rewrite Hc.
    rewrite step_eq. unfold next_step at 1; cbn [stack args input_of]. rewrite Hk. reflexivity.
  - destruct (IHreaches_call _ _ Hc Hk v (RVal v) rest (input_of_not_exn v H0)) as [j Hj].
    exists (1 + j)%nat. intros n. change (1 + j + n)%nat with (Datatypes.S (j + n)).
    rewrite step_eq. unfold next_step; simpl. rewrite Hi, H. apply Hj.
  - pose proof (sim _ _ _ _ _ _ H0) as Hsim. unfold sim_goal in Hsim.
    destruct (Hsim (g1 :: rest) VNone (RGen c1) eq_refl (fun e => False_ind _ (diff_false_true e)))
      as [j1 [r1 [Hn1 [_ Hj1]]]].
    destruct (IHreaches_call _ _ Hc Hk v r1 rest (input_of_not_exn v Hn1)) as [j Hj].
    exists (1 + (j1 + j))%nat. intros n. change (1 + (j1 + j) + n)%nat with (Datatypes.S (j1 + j + n)).
    rewrite step_eq. unfold next_step; simpl. rewrite Hi, H, <- Nat.add_assoc, Hj1. apply Hj.
  - pose proof (sim _ _ _ _ _ _ H0) as Hsim. unfold sim_goal in Hsim.
    destruct (Hsim (g1 :: rest) VNone (RGen c1) eq_refl (fun e => False_ind _ (diff_false_true e)))
      as [j1 [r1 Hj1]].
    destruct (IHreaches_call _ _ Hc Hk (VExn e) r1 rest eq_refl) as [j Hj].
    exists (1 + (j1 + j))%nat. intros n. change (1 + (j1 + j) + n)%nat with (Datatypes.S (j1 + j + n)).
    rewrite step_eq. unfold next_step; simpl. rewrite Hi, H, <- Nat.add_assoc, Hj1. apply Hj.
  - destruct (IHreaches_call _ _ Hc Hk v (RTok t) rest (input_of_not_exn v H1)) as [j Hj].
    exists (1 + j)%nat. intros n. change (1 + j + n)%nat with (Datatypes.S (j + n)).
    rewrite step_eq. unfold next_step; simpl. rewrite Hi, H, H0. apply Hj.
Qed.

Theorem leak : forall g s c s1 k s2 s3, reaches_call g (Send VNone) s c s1 k ->
  resume c (Send VNone) s1 = (s2, Stop) -> resume k (Send VNone) s2 = (s3, Stop) ->
  sync_wait_ends g s s3 (Returned (RGen c)).
Proof.
  intros g s c s1 k s2 s3 H Hc Hk.
  destruct (leak_loop _ _ _ _ _ _ H _ _ Hc Hk VNone (RVal VNone) [] eq_refl) as [j Hj].
  exists j. intros m Hm. unfold sync_wait, coroutine_init.
  replace m with (j + (m - j))%nat by lia. rewrite Hj, loop_empty. reflexivity.
Qed.

(** A failing token: the generator that yielded it is never resumed. *)
Theorem token_failure : forall g k t e s s1 s2 (a : val D),
  resume g (input_of a) s = (s1, Yield (YTok t) k) -> t s1 = (s2, Err e) ->
  forall inner e' s', thrown inner e s2 e' s' -> forall h outer r n,
    loop true (Datatypes.S (length inner + n)) (Cor (g :: inner ++ h :: outer) a r) s
    = loop true n (Cor (h :: outer) (VExn e') (RTok t)) s'.
Proof.
  intros g k t e s s1 s2 a E T inner e' s' H h outer r n. rewrite step_eq. unfold next_step; cbn [stack args].
  rewrite E, T. unfold unwind. destruct (inner ++ h :: outer) eqn:Ei; [destruct inner; discriminate|].
  rewrite <- Ei. exact (throw_through _ _ _ _ _ H h outer (RTok t) true n).
Qed.
Theorem token_failure_escapes : forall g k t e s s1 s2 (a : val D),
  resume g (input_of a) s = (s1, Yield (YTok t) k) -> t s1 = (s2, Err e) ->
  forall outer e' s', thrown outer e s2 e' s' -> forall r n, (length outer < n)%nat ->
    loop true n (Cor (g :: outer) a r) s = Some (s', Raised e').
Proof.
  intros g k t e s s1 s2 a E T outer e' s' H r n L. destruct n; [lia|]. rewrite step_eq. unfold next_step; cbn [stack args].
  rewrite E, T. unfold unwind. destruct outer as [|h outer]; [inversion H; subst; reflexivity|].
  assert (N : h :: outer <> []) by discriminate. apply (throw_out _ _ _ _ _ N H). simpl in L |- *. lia.
Qed.

Lemma swallowed_outermost : forall b n g e (r : res S D) s s1,
  resume g (Throw e) s = (s1, Stop) ->
  loop b (Datatypes.S n) (Cor [g] (VExn e) r) s = Some (s1, Finished r).
Proof.
  intros. rewrite step_eq, (swallowed b g [] e r s s1 H). apply loop_empty.
Qed.

Lemma yielded_exception : forall b n g rest (a : val D) r s s1 e k,
  resume g (input_of a) s = (s1, Yield (YVal (VExn e)) k) ->
  loop b (Datatypes.S (Datatypes.S n)) (Cor (g :: rest) a r) s =
  match resume k (Throw e) s1 with
  | (s2, Raise e1) =>
      match rest with
      | [] => Some (s2, Raised e1)
      | _ => loop b n (Cor rest (VExn e1) (RVal (VExn e))) s2
      end
  | _ => loop b (Datatypes.S n) (Cor (k :: rest) (VExn e) (RVal (VExn e))) s1
  end.
Proof.
  intros. rewrite step_eq. unfold next_step at 1; cbn [stack args]. rewrite H.
  destruct (resume k (Throw e) s1) as [s2 ev] eqn:E.
  destruct ev as [|e1|y k1]; try reflexivity.
  rewrite step_eq. unfold next_step at 1; cbn [stack args input_of]. rewrite E.
  unfold unwind. destruct rest; reflexivity.
Qed.

Lemma react_token_failure : forall n m choose cmds (tbl : table (S := S) (D := D)) done s s1 tbl1 done1 c t s2 e,
  run_ready n cmds tbl done s = (s1, Some (Ok (tbl1, done1))) ->
  tbl1 <> [] ->
  lookup_key (choose m (map fst tbl1)) tbl1 = Some c ->
  cres c = RTok t -> t s1 = (s2, Err e) ->
  react n (Datatypes.S m) choose cmds tbl done s = (s2, RRaised e).
Proof.
  intros. simpl. rewrite H. destruct tbl1 as [|p l]; [congruence|]. rewrite H1.
  unfold async_io_complete. rewrite H2, H3. reflexivity.
Qed.

End Leak.

(** ** Executer invariant at every step of every generator *)
Section ExecKeep.
Context {R W O C : Type}.
Notation ex := (executer R W).
Implicit Types (os : os_layer R W O C).

(** The OS layer's own code keeps the executer's bookkeeping. *)
Definition os_keeps (I : ex -> Prop) os : Prop :=
  (forall c idx s, I s -> I (fst (os_prepare_to_send os c idx s))
     /\ pending (fst (os_prepare_to_send os c idx s)) = pending s) /\
  (forall r, keeps I (os_send os r)) /\ keeps I (os_receive os).

Ltac inv H := inversion H; subst; clear H.

Lemma ex_inv_abort : forall max idx e (s : ex), ex_inv max s -> ex_inv max (fst (send_abort idx e s)).
Proof.
  intros max idx e s [Hm [Hlen [Hnd [Hpi Hall]]]]. unfold send_abort.
  destruct (dict_get idx (pending s)); simpl; [|repeat split; auto; lia].
  pose proof (dict_del_length idx (pending s)). unfold ex_inv; simpl. unfold zlen in *.
  split; [auto|]. split; [lia|]. split; [apply dict_del_keys; auto|].
  split; [lia|]. apply dict_del_forall; auto.
Qed.

Lemma ex_inv_complete : forall max rp pid (s : ex), ex_inv max s -> ex_inv max (fst (complete rp pid s)).
Proof.
  intros max rp pid s [Hm [Hlen [Hnd [Hpi Hall]]]]. unfold complete.
  pose proof (dict_del_length pid (pending s)).
  destruct (dict_get pid (pending s)) as [[r [k|]]|]; simpl; unfold ex_inv; simpl; unfold zlen in *.
  - split; [auto|]. split; [lia|]. split; [apply dict_del_keys; auto|].
    split; [lia|]. apply dict_del_forall; auto.
  - split; [auto|]. split; [lia|]. split; [apply dict_del_keys; auto|].
    split; [lia|]. apply dict_del_forall; auto.
  - repeat split; auto; lia.
Qed.

Lemma ex_inv_begin : forall max os c cb (s : ex), (1 <= max)%Z -> os_keeps (ex_inv max) os ->
  ex_inv max s -> ex_inv max (fst (send_begin os c cb s)).
Proof.
  intros max os c cb s Hmax [Hp _] Hs. unfold send_begin, next_packet_index.
  destruct Hs as [Hm [Hlen [Hnd [Hpi Hall]]]].
  destruct (Z.leb_spec (max_queue_size s) (zlen (pending s))).
  { simpl. repeat split; auto; lia. }
  set (s1 := with_index s ((packet_index s + 1) mod max_queue_size s)).
  assert (H1 : ex_inv max s1).
  { unfold ex_inv; simpl. rewrite Hm.
    assert (0 <= (packet_index s + 1) mod max < max)%Z by (apply Z.mod_pos_bound; lia).
    repeat split; auto; lia. }
  destruct (Hp c (packet_index s) s1 H1) as [H2 H3].
  destruct (os_prepare_to_send os c (packet_index s) s1) as [s2 [r|e]]; simpl in *; auto.
  destruct H2 as [Hm2 [Hlen2 [Hnd2 [Hpi2 Hall2]]]].
  pose proof (dict_set_length (packet_index s) (r, cb) (pending s2)).
  assert (length (pending s2) = length (pending s)) by (rewrite H3; reflexivity).
  unfold ex_inv; simpl. unfold zlen in *. split; [auto|]. split; [lia|].
  split; [apply dict_set_keys; auto|]. split; [lia|].
  apply dict_set_forall; auto.
Qed.

Lemma send_tail_keeps : forall max idx, keeps (ex_inv max) (send_tail (R := R) (W := W) (O := O) idx).
Proof.
  intros. constructor; simpl; intros [v|e] s s1.
  all: intros; try congruence.
  all: try match goal with H : ex_inv _ ?s, E : context [send_abort ?i ?e ?s] |- _ =>
    pose proof (ex_inv_abort max i e s H); destruct (send_abort i e s); inv E; auto end.
Qed.

Lemma send_keeps : forall max os c cb, (1 <= max)%Z -> os_keeps (ex_inv max) os ->
  keeps (ex_inv max) (send os c cb).
Proof.
  intros max os c cb Hmax Hos. constructor; simpl; intros [v|e] s s1; intros; try congruence;
  repeat match goal with
  | H : ex_inv _ ?s, E : context [send_begin os c cb ?s] |- _ =>
      pose proof (ex_inv_begin max os c cb s Hmax Hos H);
      let q := fresh in destruct (send_begin os c cb s) as [? [[? ?]|?]]; inv E; simpl in *
  end; auto.
  split; auto. split; [exact (proj1 (proj2 Hos) _)|apply send_tail_keeps].
Qed.

Lemma process_end_keeps : forall I, keeps I (process_end (R := R) (W := W) (O := O)).
Proof. intros. constructor; simpl; intros [v|e] s s1; intros; try congruence; inv H0; auto. Qed.

Lemma process_received_keeps : forall max, keeps (ex_inv max) (process_received (R := R) (W := W) (O := O)).
Proof.
  intros. constructor; simpl; intros [v|e] s s1; intros; try congruence.
  all: try (inv H0; auto; fail).
  all: destruct v as [| |[]]; try congruence; try (inv H0; auto; fail).
  all: match goal with H : ex_inv _ ?s, E : context [complete ?r ?pid ?s] |- _ =>
    pose proof (ex_inv_complete max r pid s H); destruct (complete r pid s) as [? [?|?]]; inv E; simpl in * end; auto.
  split; auto. apply process_end_keeps.
Qed.

Lemma process_receive_keeps : forall max os, os_keeps (ex_inv max) os -> keeps (ex_inv max) (process_receive os).
Proof.
  intros max os Hos. constructor; simpl; intros [v|e] s s1; intros; try congruence.
  all: inv H0; auto.
  split; auto. split; [exact (proj2 (proj2 Hos))|apply process_received_keeps].
Qed.

Lemma process_keeps : forall max os, os_keeps (ex_inv max) os -> keeps (ex_inv max) (process_pending_response os).
Proof.
  intros max os Hos. constructor; simpl; intros [v|e] s s1; intros; try congruence.
  all: try (destruct (is_queue_empty s)); inv H0; auto.
  - split; auto. apply process_receive_keeps; auto.
  - split; auto. split; [exact (proj2 (proj2 Hos))|apply process_received_keeps].
Qed.

Lemma call_loop_keeps : forall max os me, os_keeps (ex_inv max) os -> keeps (ex_inv max) (call_loop os me).
Proof.
  intros max os me Hos. cofix CIH. constructor; simpl; intros [v|e] s s1; intros; try congruence.
  all: try (destruct (results_of me s) as [|[d|e0] rest]); inv H0; auto.
  - split; auto. apply process_end_keeps.
  - split; auto. split; auto. apply process_keeps; auto.
Qed.

Lemma call_keeps : forall max os me c, (1 <= max)%Z -> os_keeps (ex_inv max) os -> keeps (ex_inv max) (call os me c).
Proof.
  intros max os me c Hmax Hos. constructor; simpl; intros [v|e] s s1; intros; try congruence.
  all: inv H0; auto.
  split; auto. split; [apply send_keeps; auto|apply call_loop_keeps; auto].
Qed.

Lemma wait_keeps : forall max os, os_keeps (ex_inv max) os -> keeps (ex_inv max) (wait os).
Proof.
  intros max os Hos. cofix CIH. constructor; simpl; intros [v|e] s s1; intros; try congruence.
  all: try (destruct (is_queue_empty s)); inv H0; auto.
  split; auto. split; auto. apply process_keeps; auto.
Qed.

End ExecKeep.

Section Frame.
Context {R W O C : Type}.
Notation ex := (executer R W).
Implicit Types (os : os_layer R W O C).

Lemma only_world_keeps : forall D (I : ex -> Prop),
  (forall a b, same_books a b -> I a -> I b) ->
  forall g : gen ex D, only_world g -> keeps I g.
Proof.
  intros D I HI. cofix CIH. intros g [K1 K2 K3 K4 K5]. constructor; intros.
  - eauto.
  - eauto.
  - destruct (K3 _ _ _ _ _ H0). split; [eauto|auto].
  - destruct (K4 _ _ _ _ _ H0) as [? [? ?]]. split; [eauto|]. split; auto.
  - destruct (K5 _ _ _ _ _ H0) as [? [? ?]]. split; [eauto|]. split; [eauto|auto].
Qed.

Lemma ex_inv_books : forall max (a b : ex), same_books a b -> ex_inv max a -> ex_inv max b.
Proof.
  intros max a b [H1 [H2 [H3 H4]]] [A [B [C0 [D E]]]].
  unfold ex_inv. rewrite <- H1, <- H2, <- H3. repeat split; auto; lia.
Qed.

Lemma os_only_world_keeps : forall max os, os_only_world os -> os_keeps (ex_inv max) os.
Proof.
  intros max os [H1 [H2 H3]]. split.
  - intros c idx s Hs. specialize (H1 c idx s). split.
    + eapply ex_inv_books; eauto.
    + destruct H1 as [H1 _]. auto.
  - split; [intros r|]; apply only_world_keeps; auto; intros; eapply ex_inv_books; eauto.
Qed.

Lemma op_keeps : forall max os op, (1 <= max)%Z -> os_only_world os -> keeps (ex_inv max) (op_gen os op).
Proof.
  intros max os op Hmax Hos. apply (os_only_world_keeps max) in Hos. destruct op; simpl.
  - apply send_keeps; auto.
  - apply call_keeps; auto.
  - apply wait_keeps; auto.
Qed.

Theorem async_bound : forall max os w ops n m choose s' o, (1 <= max)%Z -> os_only_world os ->
  async_wait n m choose (map (op_gen os) ops) (executer_init max w) = (s', o) ->
  (zlen (pending s') <= max)%Z /\ NoDup (map fst (pending s')).
Proof.
  intros max os w ops n m choose s' o Hmax Hos H.
  assert (Hi : ex_inv max s').
  { eapply async_wait_keeps; [|apply ex_init_inv; exact Hmax|exact H].
    rewrite Forall_forall. intros g Hg. apply in_map_iff in Hg as [op [<- _]]. apply op_keeps; auto. }
  destruct Hi as [_ [A [B _]]]. auto.
Qed.

Theorem sync_bound : forall max os w ops s', (1 <= max)%Z -> os_only_world os ->
  sync_session os (executer_init max w) ops s' ->
  (zlen (pending s') <= max)%Z /\ NoDup (map fst (pending s')).
Proof.
  intros max os w ops s' Hmax Hos H.
  assert (Hi : forall s ops s', sync_session os s ops s' -> ex_inv max s -> ex_inv max s').
  { induction 1; auto. intros. apply IHsync_session. eapply sync_wait_keeps; eauto. apply op_keeps; auto. }
  apply Hi in H; [|apply ex_init_inv; auto]. destruct H as [_ [A [B _]]]. auto.
Qed.
End Frame.
