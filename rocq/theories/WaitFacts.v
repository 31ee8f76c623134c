(** Lemmas about waiting for several events on Windows. *)
From Coq Require Import ZArith List Bool Lia Permutation.
From Verif Require Import Base Gen GenFacts SpecGen SpecAsync AsyncFacts Executer OsCommon OsWin32 SpecSg SpecDrivers
  SpecConc ConcFacts Win32Wait SpecWait.
Import ListNotations.
Local Open Scope Z_scope.

Lemma event_set_fresh : forall e k d, ~ In e (map fst d) -> event_set e k d = d ++ [(e, k)].
Proof.
  induction d as [|[e0 k0] d IH]; intros H; cbn in *; [reflexivity|].
  destruct (Z.eqb_spec e0 e); [tauto|]. rewrite IH by tauto. reflexivity.
Qed.

Lemma events_dict : forall ev l d, NoDup (map fst d ++ map ev l) ->
  fold_left (fun d k => event_set (ev k) k d) l d = d ++ combine (map ev l) l.
Proof.
  induction l as [|k l IH]; intros d H; cbn [fold_left map combine]; [rewrite app_nil_r; reflexivity|].
  cbn [map] in H. rewrite event_set_fresh.
  - rewrite IH; [rewrite <- app_assoc; reflexivity|]. rewrite map_app. cbn [map fst]. rewrite <- app_assoc. exact H.
  - apply NoDup_remove_2 in H. intro Hx. apply H. apply in_or_app. auto.
Qed.

Lemma events_distinct : forall ev l, NoDup (map ev l) -> events_of ev l = combine (map ev l) l.
Proof. intros. unfold events_of. rewrite events_dict; auto. Qed.

Lemma map_nodup : forall ev j (l : list nat), own_events ev -> NoDup l -> NoDup (map (ev j) l).
Proof.
  intros ev j l He. induction 1; cbn [map]; constructor; auto.
  intro Hx. apply in_map_iff in Hx. destruct Hx as (y & Hy & Hin). apply H.
  destruct (He j y) as [_ E]. rewrite <- (E x Hy). exact Hin.
Qed.

Lemma fst_combine : forall (A B : Type) (l : list A) (l' : list B), length l = length l' -> map fst (combine l l') = l.
Proof. induction l; destruct l'; cbn; intros; try lia; f_equal; auto. Qed.

Lemma nth_combine : forall (l : list nat) (f : nat -> Z) i,
  nth_error (combine (map f l) l) i = option_map (fun k => (f k, k)) (nth_error l i).
Proof. induction l; destruct i; cbn; auto. Qed.

(** The command the system names. *)
Definition named (ev : nat -> nat -> Z) (os : nat -> list Z -> Z) (j : nat) (l : list nat) : nat :=
  nth (Z.to_nat (os j (map (ev j) l))) l (hd 0%nat l).

Lemma named_fair : forall ev os, fair_choice (named ev os).
Proof.
  intros ev os j l H. unfold named.
  destruct (Nat.lt_ge_cases (Z.to_nat (os j (map (ev j) l))) (length l)) as [Hl|Hl].
  - apply nth_In. exact Hl.
  - rewrite nth_overflow by exact Hl. destruct l; [congruence|left; reflexivity].
Qed.

Lemma array_ok : forall ev j (l : list nat), own_events ev -> NoDup l -> l <> [] -> (length l <= most_events)%nat ->
  acceptable (map (ev j) l).
Proof.
  intros ev j l He Hn Hl Hm. split; [destruct l; [congruence|discriminate]|]. rewrite map_length.
  split; [exact Hm|]. split; [apply map_nodup; auto|].
  intro Hx. apply in_map_iff in Hx. destruct Hx as (k & Hk & _). destruct (He j k) as [E _]. auto.
Qed.

Lemma signalled_named : forall ev os j l, own_events ev -> win32_waits os -> NoDup l -> l <> [] ->
  (length l <= most_events)%nat ->
  (os j (map (ev j) l) = timed_out /\ signalled_command (ev j) (os j) l = Err EAsiOS) \/
  (os j (map (ev j) l) <> timed_out /\ signalled_command (ev j) (os j) l = Ok (named ev os j l)).
Proof.
  intros ev os j l He Ho Hn Hl Hm.
  destruct (Ho j (map (ev j) l)) as [H _]. specialize (H (array_ok ev j l He Hn Hl Hm)).
  unfold signalled_command, wait_for_multiple. rewrite (events_distinct _ _ (map_nodup ev j l He Hn)).
  rewrite fst_combine by (rewrite map_length; reflexivity).
  destruct H as [H|H].
  - right. split; [unfold timed_out, zlen, most_events in *; rewrite map_length in H; lia|]. unfold zlen in H. rewrite map_length in H.
    replace (_ || _) with false.
    2:{ symmetry. apply orb_false_intro; [apply Z.ltb_ge; lia|]. apply Z.leb_gt. unfold most_events in Hm. lia. }
    cbn [bind]. rewrite nth_combine. unfold named.
    rewrite (nth_error_nth' l (hd 0%nat l)) by lia. reflexivity.
  - left. split; [exact H|]. rewrite H. reflexivity.
Qed.

Lemma signalled_refused : forall ev os j l, own_events ev -> win32_waits os -> NoDup l ->
  (most_events < length l)%nat -> signalled_command (ev j) (os j) l = Err EAsiOS.
Proof.
  intros ev os j l He Ho Hn Hm. unfold signalled_command, wait_for_multiple.
  rewrite (events_distinct _ _ (map_nodup ev j l He Hn)). rewrite fst_combine by (rewrite map_length; reflexivity).
  destruct (Ho j (map (ev j) l)) as [_ H]. rewrite H; [reflexivity|]. left. rewrite map_length. exact Hm.
Qed.

Lemma event_set_in : forall e k d, In e (map fst (event_set e k d)).
Proof. induction d as [|[e0 k0] d IH]; cbn; [auto|]. destruct (Z.eqb_spec e0 e); cbn; auto. Qed.
Lemma event_set_keeps : forall x e k d, In x (map fst d) -> In x (map fst (event_set e k d)).
Proof. induction d as [|[e0 k0] d IH]; cbn; [auto|]. intros H. destruct (Z.eqb_spec e0 e); cbn in *; tauto. Qed.
Lemma events_keep : forall ev x l d, In x (map fst d) -> In x (map fst (fold_left (fun d k => event_set (ev k) k d) l d)).
Proof. induction l as [|k l IH]; intros d H; cbn [fold_left]; auto. apply IH, event_set_keeps, H. Qed.
Lemma events_all : forall ev k l d, In k l -> In (ev k) (map fst (fold_left (fun d k => event_set (ev k) k d) l d)).
Proof.
  induction l as [|x l IH]; intros d H; [contradiction|]. cbn [fold_left]. destruct H as [->|H]; [|apply IH, H].
  apply events_keep, event_set_in.
Qed.

Lemma signalled_null : forall ev os j l k, win32_waits os -> In k l -> ev j k = 0 ->
  signalled_command (ev j) (os j) l = Err EAsiOS.
Proof.
  intros ev os j l k Ho Hk He. unfold signalled_command, wait_for_multiple.
  destruct (Ho j (map fst (events_of (ev j) l))) as [_ H]. rewrite H; [reflexivity|].
  right. rewrite <- He. apply events_all. exact Hk.
Qed.

Section React.
Context {S D : Type}.

Lemma remove_nodup : forall A k (l : list (nat * A)), NoDup (map fst l) -> NoDup (map fst (remove_key k l)).
Proof.
  induction l as [|[j x] l IH]; intros H; cbn; [constructor|]. inversion H; subst.
  destruct (Nat.eqb_spec j k); cbn; auto. constructor; auto. intro Hx. apply H2.
  apply in_map_iff in Hx. destruct Hx as (y & <- & Hy). apply filter_In in Hy. apply in_map. tauto.
Qed.
Lemma remove_length : forall A k (l : list (nat * A)), (length (remove_key k l) <= length l)%nat.
Proof. intros A k. induction l as [|[j x] l IH]; cbn; [lia|]. destruct (Nat.eqb j k); cbn; unfold remove_key in IH; lia. Qed.
Lemma update_fst : forall A k v (l : list (nat * A)), map fst (update_key k v l) = map fst l.
Proof.
  intros. unfold update_key. rewrite map_map. apply map_ext. intros [j x]. cbn. destruct (Nat.eqb_spec j k); cbn; auto.
Qed.

Lemma run_ready_keys : forall n cmds (tbl : list (nat * cor S D)) done s s1 tbl1 done1,
  run_ready n cmds tbl done s = (s1, Some (Ok (tbl1, done1))) -> NoDup (map fst tbl) ->
  NoDup (map fst tbl1) /\ (length tbl1 <= length tbl)%nat.
Proof.
  induction cmds as [|k cmds IH]; intros tbl done s s1 tbl1 done1 H Hn; cbn [run_ready] in H.
  - inversion H; subst. auto.
  - destruct (lookup_key k tbl) as [c|]; [|discriminate].
    destruct (loop false n c s) as [[s2 [v|c1|e]]|]; try discriminate.
    + apply IH in H; [|apply remove_nodup; exact Hn]. pose proof (remove_length _ k tbl). split; [tauto|lia].
    + apply IH in H; [|rewrite update_fst; exact Hn]. unfold update_key in H. rewrite map_length in H. exact H.
Qed.

Lemma react_same : forall n ev os, own_events ev -> win32_waits os -> wakes_in_time os ->
  forall m cmds (tbl : list (nat * cor S D)) done s, NoDup (map fst tbl) -> (length tbl <= most_events)%nat ->
  win_react n m ev os cmds tbl done s = react n m (named ev os) cmds tbl done s.
Proof.
  intros n ev os He Ho Ht. induction m as [|m IH]; intros cmds tbl done s Hn Hl; cbn [win_react react];
  destruct (run_ready n cmds tbl done s) as [s1 [[[tbl1 done1]|e]|]] eqn:R; auto; destruct tbl1 as [|p tbl1]; auto.
  destruct (run_ready_keys _ _ _ _ _ _ _ _ R Hn) as [Hn1 Hl1].
  set (tb := p :: tbl1) in *.
  assert (Hne : map fst tb <> []) by discriminate.
  assert (Hle : (length (map fst tb) <= most_events)%nat) by (rewrite map_length; lia).
  destruct (signalled_named ev os m (map fst tb) He Ho Hn1 Hne Hle) as [[H1 H2]|[H1 H2]].
  - exfalso. apply (Ht m (map (ev m) (map fst tb))); [apply array_ok; auto|exact H1].
  - rewrite H2. cbv zeta. destruct (lookup_in_keys (named ev os m (map fst tb)) tb) as [c Hc].
    { apply named_fair. exact Hne. }
    rewrite Hc. destruct (async_io_complete c s1) as [s2 [c1|e]]; auto.
    apply IH; [rewrite update_fst; exact Hn1|]. unfold update_key. rewrite map_length. lia.
Qed.

Lemma keys_table : forall (cmds : list (gen S D)),
  map fst (combine (keys cmds) (map coroutine_init cmds)) = keys cmds.
Proof. intros. apply fst_combine. unfold keys. rewrite seq_length, map_length. reflexivity. Qed.

Theorem wait_as_chosen : forall ev os (cmds : list (gen S D)),
  own_events ev -> win32_waits os -> wakes_in_time os -> (length cmds <= most_events)%nat ->
  forall n m s, win_async_wait n m ev os cmds s = async_wait n m (named ev os) cmds s.
Proof.
  intros ev os cmds He Ho Ht Hl n m s. unfold win_async_wait, async_wait.
  rewrite (react_same n ev os He Ho Ht); [reflexivity| |].
  - rewrite keys_table. apply seq_NoDup.
  - rewrite combine_length. unfold keys. rewrite seq_length, map_length. lia.
Qed.

(** The first round fails, whatever the commands are. *)
Lemma first_round_fails : forall n m ev os (cmds : list (gen S D)) s s1 tbl1 done1,
  run_ready n (keys cmds) (combine (keys cmds) (map coroutine_init cmds)) [] s = (s1, Some (Ok (tbl1, done1))) ->
  tbl1 <> [] -> signalled_command (ev m) (os m) (map fst tbl1) = Err EAsiOS ->
  win_async_wait n (Datatypes.S m) ev os cmds s = (s1, Some (Err EAsiOS)).
Proof.
  intros n m ev os cmds s s1 tbl1 done1 R Hne H. unfold win_async_wait. cbn [win_react]. rewrite R.
  destruct tbl1 as [|p tbl1]; [congruence|]. rewrite H. reflexivity.
Qed.
End React.

Section Generic.
Context {S D : Type}.

(** Every command runs to its first token, in its own state. *)
Lemma all_wait : forall N (gs : list (gen S D)) ss ss',
  (forall i g s, nth_error gs i = Some g -> nth_error ss i = Some s ->
     exists s' c, nth_error ss' i = Some s' /\ loop false N (coroutine_init g) s = Some (s', Blocked c)) ->
  length ss = length gs -> length ss' = length gs ->
  forall (pre0 pre1 : list S) (pre : list (nat * cor (list S) D)) done, length pre0 = length pre1 ->
  map fst pre = seq 0 (length pre0) ->
  exists cs, run_ready N (seq (length pre0) (length gs))
    (pre ++ combine (seq (length pre0) (length gs))
       (map coroutine_init (map (fun p => gen_at (fst p) (snd p)) (combine (seq (length pre0) (length gs)) gs))))
    done (pre1 ++ ss)
    = (pre1 ++ ss', Some (Ok (pre ++ cs, done))) /\ map fst cs = seq (length pre0) (length gs).
Proof.
  induction gs as [|g gs IH]; intros ss ss' H H1 H2 pre0 pre1 pre done Hp Hk.
  - destruct ss, ss'; try discriminate. exists []. cbn. rewrite !app_nil_r. auto.
  - destruct ss as [|s ss], ss' as [|s' ss']; try discriminate.
    destruct (H 0%nat g s eq_refl eq_refl) as (x & c & Hx & Hloop). cbn in Hx. inversion Hx; subst x.
    cbn [length seq combine map fst snd run_ready].
    assert (Hfresh : ~ In (length pre0) (map fst pre)) by (rewrite Hk; intro Hin; apply in_seq in Hin; lia).
    rewrite lookup_mid by exact Hfresh.
    assert (Hnth : nth_error (pre1 ++ s :: ss) (length pre0) = Some s).
    { rewrite Hp, nth_error_app2, Nat.sub_diag by lia. reflexivity. }
    change (coroutine_init (gen_at (length pre0) g)) with (cor_at (length pre0) (coroutine_init g)).
    rewrite (loop_at N (length pre0) (coroutine_init g) _ s Hnth), Hloop. cbn [loop_out_at].
    assert (Hset : SpecAsync.set_nth (length pre0) s' (pre1 ++ s :: ss) = pre1 ++ s' :: ss).
    { rewrite Hp. clear. induction pre1; cbn; [reflexivity|]. f_equal. assumption. }
    rewrite Hset. rewrite update_mid.
    2: exact Hfresh.
    2:{ rewrite fst_combine.
        - intro Hin. apply in_seq in Hin. lia.
        - rewrite !map_length, combine_length, !seq_length. lia. }
    destruct (IH ss ss') with (pre0 := pre0 ++ [s]) (pre1 := pre1 ++ [s']) (pre := pre ++ [(length pre0, cor_at (length pre0) c)])
      (done := done) as (cs & R & Hcs).
    { intros i g0 s0 Hg Hs. apply (H (Datatypes.S i)); assumption. }
    { cbn in *; lia. } { cbn in *; lia. }
    { rewrite !app_length. cbn. lia. }
    { rewrite map_app, app_length, seq_app, Hk. reflexivity. }
    rewrite app_length in R, Hcs. cbn [length] in R, Hcs. rewrite Nat.add_1_r in R, Hcs.
    rewrite <- !app_assoc in R. cbn [app] in R. exists ((length pre0, cor_at (length pre0) c) :: cs).
    split; [exact R|]. cbn [map fst]. rewrite Hcs. reflexivity.
Qed.

Lemma waits_bound : forall (gs : list (gen S D)) ss ss', length ss = length gs -> length ss' = length gs ->
  (forall i g s s', nth_error gs i = Some g -> nth_error ss i = Some s -> nth_error ss' i = Some s' -> comes_to_wait g s s') ->
  exists N, forall n, (N <= n)%nat -> forall i g s, nth_error gs i = Some g -> nth_error ss i = Some s ->
     exists s' c, nth_error ss' i = Some s' /\ loop false n (coroutine_init g) s = Some (s', Blocked c).
Proof.
  induction gs as [|g gs IH]; intros ss ss' H1 H2 H.
  - exists 0%nat. intros n _ [|i]; discriminate.
  - destruct ss as [|s ss], ss' as [|s' ss']; try discriminate.
    destruct (IH ss ss') as [N HN]; try (cbn in *; lia). { intros i. apply (H (Datatypes.S i)). }
    destruct (H 0%nat g s s' eq_refl eq_refl eq_refl) as (n0 & c & Hc).
    exists (Nat.max N n0). intros n Hn [|i] g0 s0 Hg Hs; cbn in *.
    + inversion Hg; inversion Hs; subst. exists s', c. split; [reflexivity|]. eapply loop_more; eauto. lia.
    + apply HN; auto. lia.
Qed.

Theorem commands_wait : forall (gs : list (gen S D)) ss ss', gs <> [] -> length ss = length gs -> length ss' = length gs ->
  (forall i g s s', nth_error gs i = Some g -> nth_error ss i = Some s -> nth_error ss' i = Some s' -> comes_to_wait g s s') ->
  exists N, forall n m ev os, (N <= n)%nat ->
    signalled_command (ev m) (os m) (seq 0 (length gs)) = Err EAsiOS ->
    win_async_wait n (Datatypes.S m) ev os (commands_at gs) ss = (ss', Some (Err EAsiOS)).
Proof.
  intros gs ss ss' Hne H1 H2 H. destruct (waits_bound gs ss ss' H1 H2 H) as [N HN]. exists N.
  intros n m ev os Hn He.
  destruct (all_wait n gs ss ss' (HN n Hn) H1 H2 [] [] [] [] eq_refl eq_refl) as (cs & R & Hcs). cbn [app length] in R, Hcs.
  apply (first_round_fails n m ev os (commands_at gs) ss ss' cs []).
  - unfold keys. rewrite commands_at_length. exact R.
  - intro Hx. subst cs. destruct gs; [congruence|discriminate].
  - rewrite Hcs. exact He.
Qed.
End Generic.

Section Calls.
Context {T A : Type}.
Context (sense_of : bytes -> result unit) (tgt : target T).
Notation ex := (executer spt (win_world T)).
Notation calls mcs := (map (fun p => call (win_async_os (A := A) sense_of (honest_win tgt)) (fst p) (snd p)) mcs).

Theorem calls_wait : forall (s : ex) mcs n m ev os,
  pending s = [] -> incoming_packets (world s) = [] ->
  0 <= packet_index s < max_queue_size s -> zlen mcs <= max_queue_size s -> mcs <> [] ->
  NoDup (map fst mcs) -> (forall me, In me (map fst mcs) -> ~ In me (map fst (cb_log s))) ->
  Forall win_fits (map snd mcs) -> (20 <= n)%nat ->
  signalled_command (ev m) (os m) (seq 0 (length mcs)) = Err EAsiOS ->
  exists s', win_async_wait n (Datatypes.S m) ev os (calls mcs) s = (s', Some (Err EAsiOS)) /\
    length (pending s') = length mcs /\ max_queue_size s' = max_queue_size s /\ w_dev (world s') = w_dev (world s).
Proof.
  intros s mcs n m ev os Hp Hi Hidx Hlen Hne Hnd Hlog Hf Hn Hsig.
  set (rest := combine (seq 0 (length mcs)) mcs).
  assert (Hrf : map fst rest = seq 0 (length mcs)) by apply combine_seq_keys.
  assert (Hrs : map snd rest = mcs).
  { unfold rest. generalize 0%nat. clear. induction mcs as [|x l IH]; intros k; cbn; [reflexivity|]. f_equal. apply IH. }
  assert (Hrl : length rest = length mcs) by (rewrite <- Hrs; rewrite map_length; reflexivity).
  destruct (run_start (A := A) sense_of tgt rest [] s n (packet_index s) []) as (ws & s1 & R & Hinv & Hrest & Hdev & Hmax & _).
  { constructor; cbn; auto. repeat split; constructor. }
  { lia. }
  { exact Hidx. }
  { unfold zlen in *. rewrite Hrl. cbn [length]. lia. }
  { reflexivity. }
  { unfold zlen. cbn [length]. rewrite Z.add_0_r, Z.mod_small by lia. reflexivity. }
  { cbn [map app]. rewrite Hrf. apply seq_NoDup. }
  { cbn [map app]. rewrite <- (map_map snd fst). rewrite Hrs. exact Hnd. }
  { intros x Hx. assert (Hx2 : In (snd x) mcs) by (rewrite <- Hrs; apply in_map; exact Hx). split.
    - apply Hlog. apply in_map. exact Hx2.
    - rewrite Forall_forall in Hf. apply Hf. apply in_map. exact Hx2. }
  cbn [app map] in R, Hinv.
  assert (Hkeys : map fst (map (entry (A := A) sense_of tgt) ws) = seq 0 (length mcs)).
  { rewrite map_map. cbn [entry fst]. rewrite <- Hrf, <- Hrest, map_map. reflexivity. }
  exists s1. split.
  - apply (first_round_fails n m ev os (calls mcs) s s1 (map (entry sense_of tgt) ws) []).
    + rewrite Hrf in R. unfold keys. change (calls mcs) with (calls_of (A := A) sense_of tgt mcs). rewrite init_entries. fold rest.
      replace (length (calls_of (A := A) sense_of tgt mcs)) with (length mcs) by (unfold calls_of; rewrite map_length; reflexivity).
      exact R.
    + intro Hx. rewrite Hx in Hkeys. destruct mcs; [congruence|discriminate].
    + rewrite Hkeys. exact Hsig.
  - rewrite (i_pending _ _ Hinv), map_length. split; [|auto].
    rewrite <- Hrl, <- Hrest, map_length. reflexivity.
Qed.
End Calls.

Lemma fails_signal : forall ev os j n, win32_waits os -> wait_fails ev os j n ->
  signalled_command (ev j) (os j) (seq 0 n) = Err EAsiOS.
Proof.
  intros ev os j n Ho [[He Hn]|[(k & Hk & He)|[He Ht]]].
  - apply signalled_refused; auto; [apply seq_NoDup|]. rewrite seq_length. exact Hn.
  - apply (signalled_null ev os j _ k); auto. apply in_seq. lia.
  - unfold signalled_command, wait_for_multiple.
    rewrite (events_distinct _ _ (map_nodup ev j _ He (seq_NoDup n 0))). rewrite fst_combine by (rewrite map_length; reflexivity).
    rewrite Ht. reflexivity.
Qed.

(** Commands sharing an event. *)
Lemma event_set_at : forall e k d e' k', NoDup (map fst d) -> In (e', k') (event_set e k d) ->
  (e' = e /\ k' = k) \/ (e' <> e /\ In (e', k') d).
Proof.
  induction d as [|[a b] d IH]; intros e' k' Hn H; cbn [event_set] in H.
  - destruct H as [H|[]]. inversion H. auto.
  - cbn [map fst] in Hn. inversion Hn as [|? ? Ha Hd]. subst. destruct (Z.eqb_spec a e) as [E|E].
    + subst a. destruct H as [H|H]; [inversion H; auto|]. right. split; [|right; exact H].
      intro Hx. subst e'. apply Ha. apply (in_map fst) in H. exact H.
    + destruct H as [H|H]; [inversion H; subst; right; split; [exact E|left; reflexivity]|].
      destruct (IH _ _ Hd H) as [Hx|[Hx Hy]]; [auto|right; split; [exact Hx|right; exact Hy]].
Qed.
Lemma event_set_keys : forall e k d x, In x (map fst (event_set e k d)) -> x = e \/ In x (map fst d).
Proof.
  induction d as [|[a b] d IH]; intros x H; cbn [event_set] in H.
  - destruct H as [H|[]]. auto.
  - destruct (a =? e); cbn [map fst] in H |- *; (destruct H as [H|H]; [right; left; exact H|]).
    + right. right. exact H.
    + destruct (IH _ H); auto. right. right. assumption.
Qed.
Lemma event_set_nodup : forall e k d, NoDup (map fst d) -> NoDup (map fst (event_set e k d)).
Proof.
  induction d as [|[a b] d IH]; intros Hn; cbn [event_set].
  - constructor; [intros []|constructor].
  - cbn [map fst] in Hn. inversion Hn as [|? ? Ha Hd]. subst. destruct (Z.eqb_spec a e) as [E|E].
    + exact Hn.
    + cbn [map fst]. constructor; [|apply IH; exact Hd]. intro H. apply event_set_keys in H. destruct H; congruence.
Qed.
Lemma events_last : forall ev l d p, NoDup (map fst d) ->
  (forall e k, In (e, k) d -> e = ev k /\ last_waiting ev p k) ->
  let d' := fold_left (fun d k => event_set (ev k) k d) l d in
  forall e k, In (e, k) d' -> e = ev k /\ last_waiting ev (p ++ l) k.
Proof.
  induction l as [|x l IH]; intros d p Hn H d' e k Hin.
  - rewrite app_nil_r. exact (H e k Hin).
  - replace (p ++ x :: l) with ((p ++ [x]) ++ l) by (rewrite <- app_assoc; reflexivity).
    refine (IH (event_set (ev x) x d) (p ++ [x]) (event_set_nodup _ _ _ Hn) _ e k Hin).
    intros e1 k1 H1. apply event_set_at in H1; [|exact Hn]. destruct H1 as [[H1 H2]|[H1 H2]].
    + subst. split; [reflexivity|]. exists p, []. split; [reflexivity|intros k' []].
    + destruct (H _ _ H2) as [E (l1 & l2 & Hl & Hk)]. split; [exact E|]. exists l1, (l2 ++ [x]). split.
      * rewrite Hl, <- app_assoc. reflexivity.
      * intros k' Hk'. apply in_app_or in Hk'. destruct Hk' as [Hk'|[Hk'|[]]]; [apply Hk; exact Hk'|]. subst. congruence.
Qed.
Lemma signalled_last : forall ev os waiting k, signalled_command ev os waiting = Ok k -> last_waiting ev waiting k.
Proof.
  intros ev os waiting k H. unfold signalled_command in H.
  destruct (wait_for_multiple _ _) as [i|e]; [|discriminate]. cbn [bind] in H.
  destruct (nth_error _ _) as [[e k0]|] eqn:E; [|discriminate]. inversion H. subst k0.
  apply nth_error_In in E. exact (proj2 (events_last ev waiting [] [] (NoDup_nil _) (fun e k (h : False) => match h with end) e k E)).
Qed.
