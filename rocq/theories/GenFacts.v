(** Proofs about the coroutine driver. *)
From Coq Require Import ZArith List Bool Lia.
From Verif Require Import Base Gen SpecGen.
Import ListNotations.

Section Facts.
Context {S D : Type}.
Implicit Types (g : gen S D) (s : S).

Lemma loop_more : forall b n m (c : cor S D) s x,
  loop b n c s = Some x -> (n <= m)%nat -> loop b m c s = Some x.
Proof.
  induction n; intros m c s x H Hle; simpl in H.
  - destruct m; simpl; destruct (stack c); auto; discriminate.
  - destruct m; [lia|]. simpl. destruct (stack c); auto.
    destruct (next_step b c s) as [s1 []]; auto.
    apply IHn; auto; lia.
Qed.

Lemma input_of_send : forall (a v : val D), input_of a = Send v -> a = v /\ not_exn v.
Proof.
  intros [| |] v H; simpl in H; inversion H; subst; split; auto; intros ? ?; discriminate.
Qed.

Lemma input_of_not_exn : forall v : val D, not_exn v -> input_of v = Send v.
Proof. intros [| |] H; simpl; auto. exfalso; eapply H; eauto. Qed.

Lemma step_eq : forall b n g rest (a : val D) r s,
  loop b (Datatypes.S n) (Cor (g :: rest) a r) s =
  match next_step b (Cor (g :: rest) a r) s with
  | (s1, Continue c1) => loop b n c1 s1
  | (s1, Suspend c1) => Some (s1, Blocked c1)
  | (s1, Escape e) => Some (s1, Raised e)
  end.
Proof. reflexivity. Qed.

(** The stack machine simulates recursive evaluation, under any stack. *)
Definition sim_goal (g : gen S D) (i : input D) (p : bool) (s s' : S) (o : call_out D) : Prop :=
  forall rest a r, input_of a = i -> (p = true -> r = RVal a) ->
  match o with
  | CallReturns v q =>
      exists (k : nat) r', not_exn v /\ (q = true -> r' = RVal v) /\
        forall n, loop true (k + n) (Cor (g :: rest) a r) s = loop true n (Cor rest v r') s'
  | CallRaises e =>
      exists (k : nat) r',
        forall n, loop true (k + n) (Cor (g :: rest) a r) s =
          match rest with
          | [] => Some (s', Raised e)
          | _ => loop true n (Cor rest (VExn e) r') s'
          end
  end.

Lemma sim : forall g i p s s' o, evaluates g i p s s' o -> sim_goal g i p s s' o.
Proof.
  induction 1; unfold sim_goal in *; intros rest a r Hi Hp.
  - (* finish *)
    apply input_of_send in Hi as [-> Hn].
    exists 1%nat, r. split; auto. split; auto. intros n. change (1 + n)%nat with (Datatypes.S n).
    rewrite step_eq. unfold next_step; simpl. rewrite input_of_not_exn by auto. rewrite H. reflexivity.
  - (* raise *)
    exists 1%nat, r. intros n. change (1 + n)%nat with (Datatypes.S n).
    rewrite step_eq. unfold next_step; simpl. rewrite Hi, H. unfold unwind. destruct rest; reflexivity.
  - (* value *)
    assert (Hs : forall n, loop true (Datatypes.S n) (Cor (g :: rest) a r) s
                 = loop true n (Cor (k :: rest) v (RVal v)) s1).
    { intros. rewrite step_eq. unfold next_step; simpl. rewrite Hi, H. reflexivity. }
    specialize (IHevaluates rest v (RVal v) (input_of_not_exn v H0) (fun _ => eq_refl)).
    destruct o as [w q|e]; destruct IHevaluates as [j [r' Hj]]; exists (Datatypes.S j), r'.
    + destruct Hj as [? [? Hj]]. split; auto. split; auto. intros n.
      change (Datatypes.S j + n)%nat with (Datatypes.S (j + n)). rewrite Hs. apply Hj.
    + intros n. change (Datatypes.S j + n)%nat with (Datatypes.S (j + n)). rewrite Hs. apply Hj.
  - (* call *)
    assert (Hs : forall n, loop true (Datatypes.S n) (Cor (g :: rest) a r) s
                 = loop true n (Cor (c :: k :: rest) VNone (RGen c)) s1).
    { intros. rewrite step_eq. unfold next_step; simpl. rewrite Hi, H. reflexivity. }
    destruct (IHevaluates1 (k :: rest) VNone (RGen c) eq_refl (fun e => False_ind _ (diff_false_true e)))
      as [j1 [r1 [Hn1 [Hq1 Hj1]]]].
    specialize (IHevaluates2 rest v r1 (input_of_not_exn v Hn1) Hq1).
    destruct o as [w q'|e]; destruct IHevaluates2 as [j2 [r2 Hj2]]; exists (Datatypes.S (j1 + j2)), r2.
    + destruct Hj2 as [? [? Hj2]]. split; auto. split; auto. intros n.
      change (Datatypes.S (j1 + j2) + n)%nat with (Datatypes.S (j1 + j2 + n)).
      rewrite <- Nat.add_assoc, Hs, Hj1, Hj2. reflexivity.
    + intros n.
      change (Datatypes.S (j1 + j2) + n)%nat with (Datatypes.S (j1 + j2 + n)).
      rewrite <- Nat.add_assoc, Hs, Hj1, Hj2. reflexivity.
  - (* call raises *)
    assert (Hs : forall n, loop true (Datatypes.S n) (Cor (g :: rest) a r) s
                 = loop true n (Cor (c :: k :: rest) VNone (RGen c)) s1).
    { intros. rewrite step_eq. unfold next_step; simpl. rewrite Hi, H. reflexivity. }
    destruct (IHevaluates1 (k :: rest) VNone (RGen c) eq_refl (fun e => False_ind _ (diff_false_true e)))
      as [j1 [r1 Hj1]].
    specialize (IHevaluates2 rest (VExn e) r1 eq_refl (fun e => False_ind _ (diff_false_true e))).
    destruct o as [w q'|e']; destruct IHevaluates2 as [j2 [r2 Hj2]]; exists (Datatypes.S (j1 + j2)), r2.
    + destruct Hj2 as [? [? Hj2]]. split; auto. split; auto. intros n.
      change (Datatypes.S (j1 + j2) + n)%nat with (Datatypes.S (j1 + j2 + n)).
      rewrite <- Nat.add_assoc, Hs, Hj1, Hj2. reflexivity.
    + intros n.
      change (Datatypes.S (j1 + j2) + n)%nat with (Datatypes.S (j1 + j2 + n)).
      rewrite <- Nat.add_assoc, Hs, Hj1, Hj2. reflexivity.
  - (* token *)
    assert (Hs : forall n, loop true (Datatypes.S n) (Cor (g :: rest) a r) s
                 = loop true n (Cor (k :: rest) v (RTok t)) s2).
    { intros. rewrite step_eq. unfold next_step; simpl. rewrite Hi, H, H0. reflexivity. }
    specialize (IHevaluates rest v (RTok t) (input_of_not_exn v H1)
                  (fun e => False_ind _ (diff_false_true e))).
    destruct o as [w q|e]; destruct IHevaluates as [j [r' Hj]]; exists (Datatypes.S j), r'.
    + destruct Hj as [? [? Hj]]. split; auto. split; auto. intros n.
      change (Datatypes.S j + n)%nat with (Datatypes.S (j + n)). rewrite Hs. apply Hj.
    + intros n. change (Datatypes.S j + n)%nat with (Datatypes.S (j + n)). rewrite Hs. apply Hj.
Qed.

Lemma sync_wait_value : forall g s s' v,
  call_evaluates g s s' (CallReturns v true) ->
  sync_wait_ends g s s' (Returned (RVal v)).
Proof.
  intros g s s' v H. apply sim in H. unfold sim_goal in H.
  destruct (H [] VNone (RVal VNone) eq_refl (fun _ => eq_refl)) as [k [r' [Hn [Hr Hl]]]].
  exists k. intros m Hm. unfold sync_wait, coroutine_init.
  replace m with (k + (m - k))%nat by lia. rewrite Hl.
  rewrite (Hr eq_refl). destruct (m - k)%nat; reflexivity.
Qed.

Lemma sync_wait_raise : forall g s s' e,
  call_evaluates g s s' (CallRaises e) ->
  sync_wait_ends g s s' (Threw e).
Proof.
  intros g s s' e H. apply sim in H. unfold sim_goal in H.
  destruct (H [] VNone (RVal VNone) eq_refl (fun _ => eq_refl)) as [k [r' Hl]].
  exists k. intros m Hm. unfold sync_wait, coroutine_init.
  replace m with (k + (m - k))%nat by lia. rewrite Hl. reflexivity.
Qed.

(** Even when the value does not come from a plain yield, the run ends in the same state. *)
Lemma sync_wait_other : forall g s s' v q,
  call_evaluates g s s' (CallReturns v q) ->
  exists r, sync_wait_ends g s s' (Returned r).
Proof.
  intros g s s' v q H. apply sim in H. unfold sim_goal in H.
  destruct (H [] VNone (RVal VNone) eq_refl (fun _ => eq_refl)) as [k [r' [Hn [Hr Hl]]]].
  exists r'. exists k. intros m Hm. unfold sync_wait, coroutine_init.
  replace m with (k + (m - k))%nat by lia. rewrite Hl.
  destruct (m - k)%nat; reflexivity.
Qed.

Lemma sync_wait_det : forall g s s1 s2 o1 o2,
  sync_wait_ends g s s1 o1 -> sync_wait_ends g s s2 o2 -> s1 = s2 /\ o1 = o2.
Proof.
  intros g s s1 s2 o1 o2 [n1 H1] [n2 H2].
  specialize (H1 (Nat.max n1 n2) (Nat.le_max_l _ _)).
  specialize (H2 (Nat.max n1 n2) (Nat.le_max_r _ _)).
  rewrite H1 in H2. inversion H2; auto.
Qed.

Lemma sync_wait_some_ends : forall g s s' o n,
  sync_wait n g s = Some (s', o) -> sync_wait_ends g s s' o.
Proof.
  intros g s s' o n H. exists n. intros m Hm. unfold sync_wait in *.
  destruct (loop true n (coroutine_init g) s) as [[s1 l]|] eqn:E; [|discriminate].
  rewrite (loop_more _ _ _ _ _ _ E Hm). exact H.
Qed.

(** Converse: a terminating run of a well-mannered coroutine is an evaluation. *)
Lemma run_decompose : forall n g rest a r s x i,
  well_mannered g -> input_of a = i ->
  loop true n (Cor (g :: rest) a r) s = Some x ->
  forall p, exists s' o, evaluates g i p s s' o /\
  match o with
  | CallReturns v q => not_exn v /\ exists m r', (m < n)%nat /\ loop true m (Cor rest v r') s' = Some x
  | CallRaises e =>
      match rest with
      | [] => x = (s', Raised e)
      | _ => exists m r', (m < n)%nat /\ loop true m (Cor rest (VExn e) r') s' = Some x
      end
  end.
Proof.
  intros n. induction n as [n IH] using lt_wf_ind. intros g rest a r s x i Hwm Hi Hl p.
  destruct n; [discriminate|]. rewrite step_eq in Hl. unfold next_step in Hl. simpl in Hl.
  rewrite Hi in Hl. destruct Hwm as [Hstop Hval Hgen Htok].
  destruct (resume g i s) as [s1 ev] eqn:E. destruct ev as [|e|y k].
  - (* stop *)
    destruct (Hstop _ _ _ E) as [v ->]. apply input_of_send in Hi as [-> Hn].
    exists s1, (CallReturns v p). split. apply ev_finish; auto. split; auto. exists n, r. split; [lia|auto].
  - (* raise *)
    exists s1, (CallRaises e). split. apply ev_raise; auto. unfold unwind in Hl.
    destruct rest; [inversion Hl; auto|]. exists n, r. split; [lia|auto].
  - destruct y as [v|c|t].
    + (* value *)
      destruct (Hval _ _ _ _ _ E) as [Hn Hwk].
      destruct (IH n (Nat.lt_succ_diag_r n) k rest v (RVal v) s1 x (Send v) Hwk (input_of_not_exn v Hn) Hl true)
        as [s' [o [Hev Ho]]].
      exists s', o. split. eapply ev_value; eauto.
      destruct o. destruct Ho as [? [m [r' [? ?]]]]. split; auto. exists m, r'; split; [lia|auto].
      destruct rest; auto. destruct Ho as [m [r' [? ?]]]. exists m, r'; split; [lia|auto].
    + (* call *)
      destruct (Hgen _ _ _ _ _ E) as [Hwc Hwk].
      destruct (IH n (Nat.lt_succ_diag_r n) c (k :: rest) VNone (RGen c) s1 x (Send VNone) Hwc eq_refl Hl false)
        as [s2 [o1 [Hev1 Ho1]]].
      destruct o1 as [v q|e].
      * destruct Ho1 as [Hn [m [r' [Hm Hl2]]]].
        destruct (IH m ltac:(lia) k rest v r' s2 x (Send v) Hwk (input_of_not_exn v Hn) Hl2 q)
          as [s' [o [Hev Ho]]].
        exists s', o. split. eapply ev_call; eauto.
        destruct o. destruct Ho as [? [m' [r'' [? ?]]]]. split; auto. exists m', r''; split; [lia|auto].
        destruct rest; auto. destruct Ho as [m' [r'' [? ?]]]. exists m', r''; split; [lia|auto].
      * destruct Ho1 as [m [r' [Hm Hl2]]].
        destruct (IH m ltac:(lia) k rest (VExn e) r' s2 x (Throw e) Hwk eq_refl Hl2 false)
          as [s' [o [Hev Ho]]].
        exists s', o. split. eapply ev_call_raise; eauto.
        destruct o. destruct Ho as [? [m' [r'' [? ?]]]]. split; auto. exists m', r''; split; [lia|auto].
        destruct rest; auto. destruct Ho as [m' [r'' [? ?]]]. exists m', r''; split; [lia|auto].
    + (* token *)
      destruct (Htok _ _ _ _ _ E) as [Ht Hwk]. destruct (Ht s1) as [s2 [v [Et Hn]]].
      rewrite Et in Hl.
      destruct (IH n (Nat.lt_succ_diag_r n) k rest v (RTok t) s2 x (Send v) Hwk (input_of_not_exn v Hn) Hl false)
        as [s' [o [Hev Ho]]].
      exists s', o. split. eapply ev_token; eauto.
      destruct o. destruct Ho as [? [m' [r'' [? ?]]]]. split; auto. exists m', r''; split; [lia|auto].
      destruct rest; auto. destruct Ho as [m' [r'' [? ?]]]. exists m', r''; split; [lia|auto].
Qed.

Lemma loop_empty : forall b n (a : val D) (r : res S D) s,
  loop b n (Cor [] a r) s = Some (s, Finished r).
Proof. intros; destruct n; reflexivity. Qed.

Lemma sync_wait_only : forall g s s' o,
  well_mannered g -> sync_wait_ends g s s' o ->
  match o with
  | Returned _ => exists v q, call_evaluates g s s' (CallReturns v q)
  | Threw e => call_evaluates g s s' (CallRaises e)
  end.
Proof.
  intros g s s' o Hwm [n Hn]. specialize (Hn n (le_n n)). unfold sync_wait in Hn.
  destruct (loop true n (coroutine_init g) s) as [[s1 l]|] eqn:E; [|discriminate].
  unfold coroutine_init in E.
  destruct (run_decompose n g [] VNone (RVal VNone) s (s1, l) (Send VNone) Hwm eq_refl E true)
    as [s2 [oc [Hev Ho]]].
  destruct oc as [v q|e].
  - destruct Ho as [_ [m [r' [_ Hl]]]]. rewrite loop_empty in Hl. inversion Hl; subst.
    inversion Hn; subst. eauto.
  - inversion Ho; subst. inversion Hn; subst. exact Hev.
Qed.

(** ** Exceptions *)

Lemma throw_through : forall (inner : list (gen S D)) e s e' s', thrown inner e s e' s' ->
  forall h outer r b n,
    loop b (length inner + n) (Cor (inner ++ h :: outer) (VExn e) r) s
    = loop b n (Cor (h :: outer) (VExn e') r) s'.
Proof.
  intros inner e s e' s' H. induction H as [e s|g fs e s e1 s1 e2 s2 E H IH]; intros h outer r b n; [reflexivity|].
  cbn [length app Nat.add]. rewrite step_eq. unfold next_step; simpl. rewrite E. unfold unwind.
  destruct (fs ++ h :: outer) eqn:Ei; [destruct fs; discriminate|]. rewrite <- Ei. apply IH.
Qed.

Lemma thrown_app : forall (fs1 fs2 : list (gen S D)) e s e2 s2, thrown (fs1 ++ fs2) e s e2 s2 ->
  exists e1 s1, thrown fs1 e s e1 s1 /\ thrown fs2 e1 s1 e2 s2.
Proof.
  induction fs1 as [|g fs1 IH]; intros fs2 e s e2 s2 H; [exists e, s; split; [constructor|exact H]|].
  inversion H; subst. destruct (IH _ _ _ _ _ H7) as (e0 & s0 & A & B). exists e0, s0. split; [econstructor; eauto|exact B].
Qed.
Lemma throw_out : forall (fs : list (gen S D)) e s e' s', fs <> [] -> thrown fs e s e' s' ->
  forall r b n, (length fs <= n)%nat -> loop b n (Cor fs (VExn e) r) s = Some (s', Raised e').
Proof.
  intros fs e s e' s' Hne HF r b n Hn.
  destruct (exists_last Hne) as [inner [h ->]].
  destruct (thrown_app _ _ _ _ _ _ HF) as (e1 & s1 & A & B). inversion B as [|g0 fs0 e0 s0 e3 s3 e4 s4 E B0]; subst. inversion B0; subst.
  rewrite app_length in Hn; simpl in Hn.
  replace n with (length inner + Datatypes.S (n - length inner - 1))%nat by lia.
  rewrite (throw_through _ _ _ _ _ A), step_eq. unfold next_step; simpl. rewrite E. reflexivity.
Qed.

(** Frames enclosing the handler: if the top frame yields instead of raising, the
    frames below are untouched and the pending exception is gone. *)
Lemma handler_yields : forall b (h : gen S D) outer e r s s1 y k,
  resume h (Throw e) s = (s1, Yield y k) ->
  match next_step b (Cor (h :: outer) (VExn e) r) s with
  | (_, Continue c) =>
      match y with
      | YVal v => stack c = k :: outer /\ args c = v
      | YGen ch => stack c = ch :: k :: outer /\ args c = VNone
      | YTok t => True
      end
  | _ => match y with YTok _ => True | _ => False end
  end.
Proof.
  intros. unfold next_step; simpl. rewrite H. destruct y; auto.
  - destruct b; auto. destruct (t s1) as [s2 [|]]; auto. unfold unwind. destruct outer; auto.
Qed.

(** Finishing right after a caught exception: the exception goes on to the caller. *)
Lemma swallowed : forall b (h : gen S D) outer e r s s1,
  resume h (Throw e) s = (s1, Stop) ->
  next_step b (Cor (h :: outer) (VExn e) r) s = (s1, Continue (Cor outer (VExn e) r)).
Proof. intros. unfold next_step; simpl. rewrite H. reflexivity. Qed.

End Facts.
