(** Lemmas on several commands in flight on Linux. *)
From Coq Require Import ZArith List Bool Lia Permutation.
From Verif Require Import Base BaseFacts Gen SpecGen GenFacts Executer SpecCall ExecFacts ExecGenFacts ExecStepFacts
  OsCommon OsLinux SpecSg SpecSession LinuxFacts SessionFacts SpecQueue.
Import ListNotations.
Open Scope Z_scope.

(** ** The queue of the outside world *)
Definition map_queue {X Y T} (f : X -> Y) (q : queue X T) : queue Y T :=
  Queue (q_script q) (q_target q) (map f (q_accepted q)) (map (fun p => (f (fst p), snd p)) (q_ready q)).

Lemma map_without : forall X Y (f : X -> Y) i l, map f (without i l) = without i (map f l).
Proof. intros. unfold without. rewrite map_app, firstn_map, skipn_map. reflexivity. Qed.
Lemma without_perm : forall X i (l : list X) x, nth_error l i = Some x -> Permutation l (x :: without i l).
Proof.
  induction i as [|i IH]; intros [|y l] x H; try discriminate; cbn in H.
  - inversion H; subst. reflexivity.
  - unfold without. cbn [firstn skipn app]. rewrite (IH l x H) at 1. apply perm_swap.
Qed.

Lemma fetch_map : forall X Y T (f : X -> Y) (run : Y -> T -> T * answer) script t acc ready,
  fetch run script t (map f acc) (map (fun p => (f (fst p), snd p)) ready) =
  match fetch (fun x => run (f x)) script t acc ready with
  | Some (x, a, q) => Some (f x, a, map_queue f q)
  | None => None
  end.
Proof.
  intros X Y T f run. induction script as [|[i|i|] rest IH]; intros t acc ready; cbn [fetch]; auto.
  - rewrite nth_error_map. destruct (nth_error acc i) as [x|]; cbn [option_map]; [|apply IH].
    destruct (run (f x) t) as [t' a]. rewrite <- map_without, <- IH, map_app. reflexivity.
  - rewrite nth_error_map. destruct (nth_error ready i) as [[x a]|]; cbn [option_map fst snd]; [|apply IH].
    unfold map_queue. cbn [q_script q_target q_accepted q_ready]. rewrite map_without. reflexivity.
Qed.
Lemma next_map : forall X Y T (f : X -> Y) (run : Y -> T -> T * answer) q,
  next run (map_queue f q) =
  match next (fun x => run (f x)) q with
  | Some (x, a, q') => Some (f x, a, map_queue f q')
  | None => None
  end.
Proof. intros. unfold next. cbn [map_queue q_script q_target q_accepted q_ready]. apply fetch_map. Qed.

Lemma fetch_same : forall X T (run run' : X -> T -> T * answer) script t acc ready,
  (forall x, In x acc -> forall t, run x t = run' x t) -> fetch run script t acc ready = fetch run' script t acc ready.
Proof.
  intros X T run run'. induction script as [|[i|i|] rest IH]; intros t acc ready H; cbn [fetch]; auto.
  - destruct (nth_error acc i) as [x|] eqn:E; auto.
    rewrite (H x (nth_error_In _ _ E)). destruct (run' x t) as [t' a]. apply IH.
    intros y Hy. apply H. eapply Permutation_in; [symmetry; apply (without_perm _ _ _ _ E)|]. right. exact Hy.
  - destruct (nth_error ready i) as [[x a]|]; auto.
Qed.

Lemma fetch_perm : forall X T (run : X -> T -> T * answer) script t acc ready x a q,
  fetch run script t acc ready = Some (x, a, q) -> Permutation (acc ++ map fst ready) (x :: outstanding q).
Proof.
  intros X T run. induction script as [|[i|i|] rest IH]; intros t acc ready x a q H; cbn [fetch] in H; [discriminate| | |discriminate].
  - destruct (nth_error acc i) as [y|] eqn:E; [|eauto].
    destruct (run y t) as [t' b]. apply IH in H. rewrite <- H, map_app. cbn [map fst].
    rewrite (without_perm _ _ _ _ E) at 1. cbn [app]. rewrite app_assoc. apply Permutation_cons_append.
  - destruct (nth_error ready i) as [[y b]|] eqn:E; [|eauto].
    inversion H; subst. unfold outstanding. cbn [q_accepted q_ready].
    rewrite (Permutation_map fst (without_perm _ _ _ _ E)). cbn [map fst]. symmetry. apply Permutation_middle.
Qed.
Lemma next_perm : forall X T (run : X -> T -> T * answer) q x a q',
  next run q = Some (x, a, q') -> Permutation (outstanding q) (x :: outstanding q').
Proof. intros. eapply fetch_perm. exact H. Qed.

Lemma passed_map : forall X Y T (f : X -> Y) (run : Y -> T -> T * answer) script t acc ready,
  passed run script t (map f acc) (map (fun p => (f (fst p), snd p)) ready) = map_queue f (passed (fun x => run (f x)) script t acc ready).
Proof.
  intros X Y T f run. induction script as [|[i|i|] rest IH]; intros t acc ready; cbn [passed]; auto.
  rewrite nth_error_map. destruct (nth_error acc i) as [x|]; cbn [option_map]; [|apply IH].
  destruct (run (f x) t) as [t' a]. rewrite <- map_without, <- IH, map_app. reflexivity.
Qed.
Lemma silence_map : forall X Y T (f : X -> Y) (run : Y -> T -> T * answer) q,
  after_silence run (map_queue f q) = map_queue f (after_silence (fun x => run (f x)) q).
Proof. intros. unfold after_silence. cbn [map_queue q_script q_target q_accepted q_ready]. apply passed_map. Qed.
Lemma passed_same : forall X T (run run' : X -> T -> T * answer) script t acc ready,
  (forall x, In x acc -> forall t, run x t = run' x t) -> passed run script t acc ready = passed run' script t acc ready.
Proof.
  intros X T run run'. induction script as [|[i|i|] rest IH]; intros t acc ready H; cbn [passed]; auto.
  destruct (nth_error acc i) as [x|] eqn:E; auto.
  rewrite (H x (nth_error_In _ _ E)). destruct (run' x t) as [t' a]. apply IH.
  intros y Hy. apply H. eapply Permutation_in; [symmetry; apply (without_perm _ _ _ _ E)|]. right. exact Hy.
Qed.
Lemma passed_perm : forall X T (run : X -> T -> T * answer) script t acc ready,
  Permutation (acc ++ map fst ready) (outstanding (passed run script t acc ready)).
Proof.
  intros X T run. induction script as [|[i|i|] rest IH]; intros t acc ready; cbn [passed]; try reflexivity; [|apply IH].
  destruct (nth_error acc i) as [y|] eqn:E; [|apply IH].
  destruct (run y t) as [t' b]. rewrite <- IH, map_app. cbn [map fst].
  rewrite (without_perm _ _ _ _ E) at 1. cbn [app]. rewrite app_assoc. apply Permutation_cons_append.
Qed.
Lemma silence_perm : forall X T (run : X -> T -> T * answer) q, Permutation (outstanding q) (outstanding (after_silence run q)).
Proof. intros. apply passed_perm. Qed.

Lemma outstanding_map : forall X Y T (f : X -> Y) (q : queue X T), outstanding (map_queue f q) = map f (outstanding q).
Proof.
  intros. unfold outstanding. cbn [map_queue q_accepted q_ready]. rewrite map_app, !map_map. reflexivity.
Qed.

Lemma NoDup_app_remove_l : forall X (l l' : list X), NoDup (l ++ l') -> NoDup l'.
Proof. induction l as [|x l IH]; intros l' H; auto. inversion H; auto. Qed.
Lemma NoDup_app_remove_r : forall X (l l' : list X), NoDup (l ++ l') -> NoDup l.
Proof.
  intros X l l' H. apply (NoDup_app_remove_l X l'). eapply Permutation_NoDup; [apply Permutation_app_comm|exact H].
Qed.

(** ** Memory *)
Definition region (h h0 h1 : heap) : Prop :=
  (length h1 <= length h)%nat /\ forall p, (length h0 <= p < length h1)%nat -> nth_error h p = nth_error h1 p.

Lemma nth_poke : forall p n new h k, nth_error (poke p n new h) k =
  match p with
  | Some a => if Nat.eqb a k then option_map (overwrite n new) (nth_error h k) else nth_error h k
  | None => nth_error h k
  end.
Proof.
  intros [a|] n new h k; auto. destruct (Nat.eqb_spec a k) as [->|N].
  - destruct (nth_error h k) as [b|] eqn:E; cbn [option_map].
    + apply poke_eq. exact E.
    + unfold poke. rewrite E. exact E.
  - apply poke_neq. congruence.
Qed.

Lemma mem_length : forall q a h, length (completed_mem q a h) = length h.
Proof. intros. unfold completed_mem. rewrite poke_length. destruct (_ =? -3); auto. apply poke_length. Qed.

Lemma nth_completed : forall q a h h' k, nth_error h k = nth_error h' k ->
  nth_error (completed_mem q a h) k = nth_error (completed_mem q a h') k.
Proof.
  intros q a h h' k H. unfold completed_mem. destruct (dxfer_direction q =? -3); rewrite !nth_poke, H; reflexivity.
Qed.

Section Create.
Context (timeout : Z).
Lemma created_pointers : forall idx c h r h', sgio_create idx c timeout h = (h', r) ->
  (exists new, h' = h ++ new) /\
  (exists p, sbp (hdr r) = Some p /\ (length h <= p < length h')%nat) /\
  (exists p, cmdp (hdr r) = Some p /\ (length h <= p < length h')%nat) /\
  (forall p, dxferp (hdr r) = Some p -> (length h <= p < length h')%nat) /\
  (forall p, data_buffer r = Some p -> (length h <= p < length h')%nat).
Proof.
  intros idx c h r h' H. unfold sgio_create, alloc in H.
  destruct c as [cdb n|cdb data]; [destruct (0 <? n)|]; inversion H; subst; cbn [hdr sbp cmdp dxferp data_buffer];
    (split; [rewrite <- ?app_assoc; eauto|]);
    (split; [eexists; split; [reflexivity|rewrite ?app_length; cbn [length]; lia]|]);
    (split; [eexists; split; [reflexivity|rewrite ?app_length; cbn [length]; lia]|]);
    (split; intros p E; inversion E; subst; rewrite ?app_length; cbn [length]; lia).
Qed.

Lemma outside_untouched : forall idx c h0 r h1 a h k, sgio_create idx c timeout h0 = (h1, r) ->
  (k < length h0 \/ length h1 <= k)%nat -> nth_error (completed_mem (hdr r) a h) k = nth_error h k.
Proof.
  intros idx c h0 r h1 a h k H Hk. destruct (created_pointers _ _ _ _ _ H) as (_ & (p & Hp & Bp) & _ & Hd & _).
  unfold completed_mem. rewrite nth_poke, Hp. destruct (Nat.eqb_spec p k); [lia|].
  destruct (dxfer_direction (hdr r) =? -3); auto. rewrite nth_poke.
  destruct (dxferp (hdr r)) as [d|]; auto. specialize (Hd d eq_refl). destruct (Nat.eqb_spec d k); auto. lia.
Qed.

Lemma region_described : forall idx c h0 r h1 h, sgio_create idx c timeout h0 = (h1, r) -> region h h0 h1 -> fits c ->
  described_cdb (hdr r) h = command_of c /\ described_data (hdr r) h = data_out c.
Proof.
  intros idx c h0 r h1 h H [_ R] F. destruct (created_pointers _ _ _ _ _ H) as (_ & _ & (p & Hp & Bp) & Hd & _).
  rewrite <- (created_cdb timeout _ _ _ _ _ H), <- (created_data timeout _ _ _ _ _ H) by (apply F || auto).
  unfold described_cdb, described_data, peek. rewrite Hp, R by lia. split; auto.
  destruct (dxfer_direction (hdr r) =? -2); auto. destruct (dxferp (hdr r)) as [d|]; auto.
  rewrite R by (apply Hd; auto). reflexivity.
Qed.
End Create.

(** ** The executer and the queue *)
Section Linked.
Context {T A : Type} (sense_of : bytes -> result unit) (tgt : target T) (timeout max b : Z).
Notation ex := (executer sgio (linux_world (queue sg_hdr T))).
Notation os := (linux_os (A := A) sense_of (patient tgt) timeout).
Notation ok := (fun a => is_check_condition (a_status a) (a_driver a) = true -> sense_of (pad 255 (a_sense a)) = Ok tt).

Record entry : Type := Entry { e_label : label; e_req : sgio; e_h0 : heap; e_h1 : heap }.
Definition slot_of (x : label) : Z := (b + l_seq x) mod max.
Definition block (e : entry) : sg_hdr := hdr (e_req e).

Definition entry_ok (h : heap) (e : entry) : Prop :=
  sgio_create (slot_of (e_label e)) (l_cmd (e_label e)) timeout (e_h0 e) = (e_h1 e, e_req e) /\
  fits (l_cmd (e_label e)) /\ region h (e_h0 e) (e_h1 e).
Definition apart (e e' : entry) : Prop :=
  (length (e_h1 e) <= length (e_h0 e'))%nat \/ (length (e_h1 e') <= length (e_h0 e))%nat.

Record linked (s : ex) (n : Z) (Q : queue entry T) : Prop := Linked {
  lk_max : max_queue_size s = max;
  lk_index : packet_index s = (b + n) mod max;
  lk_dev : l_dev (world s) = map_queue block Q;
  lk_keys : NoDup (map fst (pending s));
  lk_count : length (pending s) = length (outstanding Q);
  lk_get : forall e, In e (outstanding Q) ->
    dict_get (slot_of (e_label e)) (pending s) = Some (e_req e, Some (l_me (e_label e)));
  lk_slots : NoDup (map (fun e => slot_of (e_label e)) (outstanding Q));
  lk_seqs : forall e, In e (outstanding Q) -> l_seq (e_label e) < n;
  lk_ok : forall e, In e (outstanding Q) -> entry_ok (l_heap (world s)) e;
  lk_apart : forall e e', In e (outstanding Q) -> In e' (outstanding Q) ->
    slot_of (e_label e) <> slot_of (e_label e') -> apart e e'
}.
Context (Hmax : 1 <= max <= 2 ^ 31).

Lemma slot_range : forall x, 0 <= slot_of x < max.
Proof. intros. apply Z.mod_pos_bound. lia. Qed.

Lemma nodup_map_in : forall X Y (f : X -> Y) l x y, NoDup (map f l) -> In x l -> In y l -> f x = f y -> x = y.
Proof.
  induction l as [|z l IH]; intros x y H Hx Hy E; [destruct Hx|]. inversion H; subst. destruct Hx as [->|Hx], Hy as [->|Hy]; auto.
  - exfalso. apply H2. rewrite E. apply in_map. exact Hy.
  - exfalso. apply H2. rewrite <- E. apply in_map. exact Hx.
Qed.

Lemma receive_one : forall s n Q x a q', linked s n Q -> next (execute_label tgt) (map_queue e_label Q) = Some (x, a, q') -> ok a ->
  exists Q' s', linked s' n Q' /\ map_queue e_label Q' = q' /\ cb_log s' = cb_log s ++ [report (x, a)] /\
    pending s <> [] /\
    forall v p, evaluates (process_pending_response os) (Send v) p s s' (CallReturns (VData (DBool true)) true).
Proof.
  intros s n Q x a q' L N Ha.
  rewrite next_map in N. destruct (next (fun e => execute_label tgt (e_label e)) Q) as [[[e a'] Q']|] eqn:E; [|discriminate].
  inversion N; subst x a' q'. clear N.
  pose proof (next_perm _ _ _ _ _ _ _ E) as P.
  assert (In e (outstanding Q)) as Ie by (eapply Permutation_in; [symmetry; exact P|left; reflexivity]).
  pose proof (lk_ok _ _ _ L e Ie) as (Hc & Hf & Hr). pose proof (lk_get _ _ _ L e Ie) as Hg.
  set (h := l_heap (world s)) in *.
  set (s1 := with_world s (LinuxWorld (completed_mem (block e) a h) (map_queue block Q') (l_buffer (world s)))).
  assert (Hread : sg_read (patient tgt) h (l_dev (world s)) = (completed_mem (block e) a h, map_queue block Q', Ok (Some (completed_hdr (block e) a)))).
  { cbn [sg_read patient]. unfold patient_read. rewrite (lk_dev _ _ _ L), next_map.
    replace (next _ Q) with (Some (e, a, Q')); [reflexivity|]. rewrite <- E. unfold next. apply fetch_same.
    intros y Hy t. destruct (lk_ok _ _ _ L y) as (Y1 & Y2 & Y3); [unfold outstanding; apply in_or_app; auto|].
    destruct (region_described timeout _ _ _ _ _ _ Y1 Y3 Y2) as [D1 D2]. fold h in D1, D2. unfold execute_label, block.
    rewrite D1, D2. reflexivity. }
  assert (Hpid : pack_id (block e) = slot_of (e_label e)).
  { pose proof (created_sense timeout _ _ _ _ _ Hc) as (_ & _ & _ & Hp). unfold block. rewrite Hp.
    apply c_int_small. pose proof (slot_range (e_label e)). lia. }
  destruct (created_pointers timeout _ _ _ _ _ Hc) as (_ & (ps & Hps & Bps) & _ & _ & Hdb).
  assert (Same : forall k, (length (e_h0 e) <= k < length (e_h1 e))%nat ->
     nth_error (completed_mem (block e) a h) k = nth_error (completed_mem (block e) a (e_h1 e)) k).
  { intros k Hk. apply nth_completed. apply Hr. exact Hk. }
  assert (Hh : linux_handle sense_of (Some (completed_hdr (block e) a)) s1 = Ok (linux_expected (l_cmd (e_label e)) a, slot_of (e_label e))).
  { destruct (created_bounds timeout _ _ _ _ _ Hc) as [_ Hb2].
    rewrite (linux_handle_spec sense_of s1 _ (e_req e) (Some (l_me (e_label e))) (pad 255 (a_sense a))).
    - cbn [status host_status driver_status completed_hdr pack_id]. rewrite Hpid.
      change (l_heap (world s1)) with (completed_mem (block e) a h).
      replace (match data_buffer (e_req e) with Some p => nth_error (completed_mem (block e) a h) p | None => None end)
        with (match data_buffer (e_req e) with Some p => nth_error (completed_mem (block e) a (e_h1 e)) p | None => None end).
      + unfold block at 1. rewrite (created_data_read timeout _ _ _ _ _ a Hc Hf). reflexivity.
      + destruct (data_buffer (e_req e)) as [p|]; auto. symmetry. apply Same. apply Hdb. reflexivity.
    - cbn [pack_id completed_hdr]. rewrite Hpid. exact Hg.
    - cbn [status driver_status completed_hdr sbp]. intros Hcc. split; auto.
      change (l_heap (world s1)) with (completed_mem (block e) a h).
      rewrite <- (created_sense_read timeout _ _ _ _ _ a Hc). unfold string_at, block. rewrite Hps.
      fold (block e). rewrite Same by exact Bps. reflexivity.
    - intros p Hp. change (l_heap (world s1)) with (completed_mem (block e) a h). rewrite mem_length.
      specialize (Hdb p Hp). destruct Hr as [Hr _]. lia.
    - exact Hb2. }
  assert (Hpen : pending s <> []) by (intro F; rewrite F in Hg; discriminate).
  set (s2 := with_log (with_pending s1 (dict_del (slot_of (e_label e)) (pending s1)))
     (cb_log s1 ++ [(l_me (e_label e), linux_expected (l_cmd (e_label e)) a)])).
  exists Q', s2. split; [|split; [reflexivity|split; [reflexivity|split; [exact Hpen|]]]].
  - assert (Sub : forall y, In y (outstanding Q') -> In y (outstanding Q)).
    { intros y Hy. eapply Permutation_in; [symmetry; exact P|right; exact Hy]. }
    pose proof (Permutation_NoDup (Permutation_map (fun e => slot_of (e_label e)) P) (lk_slots _ _ _ L)) as ND.
    cbn [map] in ND. inversion ND as [|z zs Nin ND']; subst.
    assert (Other : forall y, In y (outstanding Q') -> slot_of (e_label y) <> slot_of (e_label e)).
    { intros y Hy F. apply Nin. rewrite <- F. apply in_map_iff. eauto. }
    constructor.
    + apply (lk_max _ _ _ L).
    + apply (lk_index _ _ _ L).
    + reflexivity.
    + apply dict_del_keys. apply (lk_keys _ _ _ L).
    + pose proof (dict_del_length_some _ _ _ Hg) as X. pose proof (Permutation_length P) as Y.
      pose proof (lk_count _ _ _ L) as Z0. change (pending s1) with (pending s) in *.
      change (pending s2) with (dict_del (slot_of (e_label e)) (pending s)). cbn [length] in Y.
      apply Nat.succ_inj. etransitivity; [exact X|]. rewrite Z0. exact Y.
    + intros y Hy. change (pending s2) with (dict_del (slot_of (e_label e)) (pending s)).
      rewrite dict_get_del_neq by (apply Other; exact Hy). apply (lk_get _ _ _ L). auto.
    + exact ND'.
    + intros y Hy. apply (lk_seqs _ _ _ L). auto.
    + intros y Hy. destruct (lk_ok _ _ _ L y (Sub y Hy)) as (Y1 & Y2 & Y3 & Y4).
      change (l_heap (world s2)) with (completed_mem (block e) a h). split; [exact Y1|]. split; [exact Y2|].
      split; [rewrite mem_length; exact Y3|]. intros p Hp. unfold block. rewrite (outside_untouched timeout _ _ _ _ _ a h p Hc).
      * apply Y4. exact Hp.
      * destruct (lk_apart _ _ _ L e y Ie (Sub y Hy)) as [G|G]; [apply not_eq_sym; apply Other; exact Hy|lia|lia].
    + intros y y' Hy Hy'. apply (lk_apart _ _ _ L); auto.
  - intros v p. eapply process_succeeds; [exact Hpen| |].
    + exact (linux_receive_evaluates sense_of (patient tgt) timeout s _ _ _ _ _ false Hread Hh).
    + apply (complete_some _ _ s1 (e_req e) (l_me (e_label e))). exact Hg.
Qed.

(** A read that is given up: the world has gone on, the executer has not. *)
Lemma give_up : forall s n Q, linked s n Q -> next (execute_label tgt) (map_queue e_label Q) = None -> outstanding Q <> [] ->
  exists Q' s', linked s' n Q' /\ map_queue e_label Q' = after_silence (execute_label tgt) (map_queue e_label Q) /\ cb_log s' = cb_log s /\
    pending s' = pending s /\
    forall v p, evaluates (process_pending_response os) (Send v) p s s' (CallRaises (EIO 0)).
Proof.
  intros s n Q L N O.
  assert (Hpen : pending s <> []).
  { intro F. apply O. apply length_zero_nil. rewrite <- (lk_count _ _ _ L), F. reflexivity. }
  set (h := l_heap (world s)).
  assert (Same : forall y, In y (q_accepted Q) -> forall t, tgt t (described_cdb (block y) h) (described_data (block y) h) = execute_label tgt (e_label y) t).
  { intros y Hy t. destruct (lk_ok _ _ _ L y) as (Y1 & Y2 & Y3); [unfold outstanding; apply in_or_app; auto|].
    destruct (region_described timeout _ _ _ _ _ _ Y1 Y3 Y2) as [D1 D2]. fold h in D1, D2. unfold execute_label, block.
    rewrite D1, D2. reflexivity. }
  set (Q' := after_silence (fun e => execute_label tgt (e_label e)) Q).
  assert (Hread : sg_read (patient tgt) h (l_dev (world s)) = (h, map_queue block Q', Err (EIO 0))).
  { cbn [sg_read patient]. unfold patient_read. rewrite (lk_dev _ _ _ L), next_map, silence_map.
    rewrite next_map in N.
    replace (next _ Q) with (next (fun e => execute_label tgt (e_label e)) Q) by (unfold next; symmetry; apply fetch_same; exact Same).
    destruct (next _ Q) as [[[z1 z2] z3]|]; [discriminate|]. unfold Q', after_silence. rewrite (passed_same _ _ _ _ _ _ _ _ Same). reflexivity. }
  assert (P : Permutation (outstanding Q) (outstanding Q')) by apply silence_perm.
  assert (Sub : forall y, In y (outstanding Q') -> In y (outstanding Q)).
  { intros y Hy. eapply Permutation_in; [symmetry; exact P|exact Hy]. }
  exists Q', (with_world s (LinuxWorld h (map_queue block Q') (l_buffer (world s)))).
  split; [|split; [unfold Q'; rewrite silence_map; reflexivity|split; [reflexivity|split; [reflexivity|]]]].
  - constructor.
    + apply (lk_max _ _ _ L).
    + apply (lk_index _ _ _ L).
    + reflexivity.
    + apply (lk_keys _ _ _ L).
    + cbn [pending with_world]. rewrite (lk_count _ _ _ L). apply Permutation_length. exact P.
    + intros e He. apply (lk_get _ _ _ L). auto.
    + eapply Permutation_NoDup; [apply Permutation_map; exact P|]. apply (lk_slots _ _ _ L).
    + intros e He. apply (lk_seqs _ _ _ L). auto.
    + intros e He. apply (lk_ok _ _ _ L). auto.
    + intros e e' He He'. apply (lk_apart _ _ _ L); auto.
  - intros v p. eapply ev_call_raise.
    + simpl. unfold is_queue_empty, zlen. destruct (pending s); [congruence|]. reflexivity.
    + apply ev_raise. cbn [os_receive linux_os linux_receive resume]. fold h. rewrite Hread. reflexivity.
    + apply ev_raise. reflexivity.
Qed.

Lemma submit_one : forall s n Q me c, linked s n Q -> fits c -> zlen (outstanding (map_queue e_label Q)) < max ->
  in_time max n (map_queue e_label Q) ->
  exists Q' s', linked s' (n + 1) Q' /\ map_queue e_label Q' = accept (Label n me c) (map_queue e_label Q) /\
    cb_log s' = cb_log s /\
    forall p, evaluates (send os c (Some me)) (Send VNone) p s s' (CallReturns (VData (DInt 88)) true).
Proof.
  intros s n Q me c L Hf Hroom Htime.
  rewrite outstanding_map in Hroom. unfold zlen in Hroom. rewrite map_length in Hroom.
  assert (Hroom' : zlen (pending s) < max_queue_size s).
  { unfold zlen. rewrite (lk_count _ _ _ L), (lk_max _ _ _ L). exact Hroom. }
  unfold in_time in Htime. rewrite outstanding_map, Forall_map, Forall_forall in Htime.
  set (idx := packet_index s). set (h := l_heap (world s)).
  destruct (sgio_create idx c timeout h) as [h1 r] eqn:Hcr.
  set (e := Entry (Label n me c) r h h1).
  assert (Hidx : slot_of (e_label e) = idx) by (unfold idx; rewrite (lk_index _ _ _ L); reflexivity).
  assert (Hnew : forall y, In y (outstanding Q) -> slot_of (e_label y) <> idx).
  { intros y Hy F. rewrite <- Hidx in F. unfold slot_of in F.
    assert (b + l_seq (e_label y) = b + l_seq (e_label e)); [|pose proof (lk_seqs _ _ _ L y Hy); cbn [e_label e l_seq] in H; lia].
    apply (residues_distinct max _ _ (b + n + 1)); [lia| | |exact F].
    - specialize (Htime y Hy). pose proof (lk_seqs _ _ _ L y Hy). cbn in Htime. lia.
    - cbn [e_label e l_seq]. lia. }
  assert (Hnone : dict_get idx (pending s) = None).
  { apply dict_get_notin. intros Hin.
    assert (X : incl (map fst (pending s)) (map (fun y => slot_of (e_label y)) (outstanding Q))).
    { apply (NoDup_length_incl (lk_slots _ _ _ L)).
      - rewrite !map_length, (lk_count _ _ _ L). lia.
      - intros z Hz. apply in_map_iff in Hz as (y & <- & Hy). pose proof (lk_get _ _ _ L y Hy) as G. apply dict_get_in in G.
        apply in_map_iff. eexists. split; [|exact G]. reflexivity. }
    apply X in Hin. apply in_map_iff in Hin as (y & F & Hy). exact (Hnew y Hy F). }
  set (w1 := LinuxWorld h1 (l_dev (world s)) (l_buffer (world s))).
  set (w2 := LinuxWorld h1 (map_queue block (accept e Q)) (l_buffer (world s))).
  destruct (created_pointers timeout _ _ _ _ _ Hcr) as ((new & En) & _).
  exists (accept e Q), (with_world (at_send s r (Some me)) w2).
  assert (Hlab : map_queue e_label (accept e Q) = accept (Label n me c) (map_queue e_label Q)).
  { unfold map_queue, accept. cbn [q_script q_target q_accepted q_ready]. rewrite map_app. reflexivity. }
  assert (Hout : Permutation (outstanding (accept e Q)) (e :: outstanding Q)).
  { unfold outstanding, accept. cbn [q_accepted q_ready]. rewrite <- app_assoc. cbn [app]. symmetry. apply Permutation_middle. }
  assert (Hin : forall y, In y (outstanding (accept e Q)) -> y = e \/ In y (outstanding Q)).
  { intros y Hy. pose proof (Permutation_in _ Hout Hy) as [E|E]; auto. }
  split; [|split; [exact Hlab|split; [reflexivity|]]].
  - assert (Hpend : pending (with_world (at_send s r (Some me)) w2) = pending s ++ [(idx, (r, Some me))]).
    { cbn. apply dict_get_none_set. exact Hnone. }
    constructor.
    + apply (lk_max _ _ _ L).
    + cbn. rewrite (lk_index _ _ _ L), (lk_max _ _ _ L), Z.add_assoc.
      rewrite Zplus_mod_idemp_l. reflexivity.
    + reflexivity.
    + cbn. apply dict_set_keys. apply (lk_keys _ _ _ L).
    + rewrite Hpend, app_length, (lk_count _ _ _ L), (Permutation_length Hout). cbn [length]. lia.
    + intros y Hy. cbn. destruct (Hin y Hy) as [->|Hy'].
      * rewrite Hidx. apply dict_get_set_eq.
      * rewrite dict_get_set_neq by (apply Hnew; exact Hy'). apply (lk_get _ _ _ L). exact Hy'.
    + eapply Permutation_NoDup; [apply Permutation_map; symmetry; exact Hout|]. cbn [map]. constructor.
      * rewrite Hidx. intros F. apply in_map_iff in F as (y & F & Hy). exact (Hnew y Hy F).
      * apply (lk_slots _ _ _ L).
    + intros y Hy. destruct (Hin y Hy) as [->|Hy']; [cbn; lia|]. pose proof (lk_seqs _ _ _ L y Hy'). lia.
    + intros y Hy. change (l_heap (world (with_world (at_send s r (Some me)) w2))) with h1.
      destruct (Hin y Hy) as [->|Hy'].
      * split; [rewrite Hidx; exact Hcr|]. split; [exact Hf|]. split; [cbn; lia|auto].
      * destruct (lk_ok _ _ _ L y Hy') as (Y1 & Y2 & Y3 & Y4). split; [exact Y1|]. split; [exact Y2|]. fold h in Y3, Y4.
        split; [rewrite En, app_length; lia|]. intros p Hp. rewrite En, nth_error_app1 by lia. apply Y4. exact Hp.
    + intros y y' Hy Hy' N. destruct (Hin y Hy) as [->|Hy1], (Hin y' Hy') as [->|Hy2].
      * congruence.
      * right. destruct (lk_ok _ _ _ L y' Hy2) as (_ & _ & Y3 & _). exact Y3.
      * left. destruct (lk_ok _ _ _ L y Hy1) as (_ & _ & Y3 & _). exact Y3.
      * apply (lk_apart _ _ _ L); auto.
  - assert (Hb : send_begin os c (Some me) s = (with_world (at_send s r (Some me)) w1, Ok (idx, r))).
    { apply begin_ok; [exact Hroom'|]. cbn [os_prepare_to_send linux_os]. unfold linux_prepare, at_prepare. cbn [world with_index].
      fold h idx. rewrite Hcr. reflexivity. }
    intros pp. eapply (send_succeeds os c (Some me) s _ _ idx r VNone _ _ pp Hb).
    eapply ev_value.
    + cbn [os_send linux_os linux_send resume world with_world l_heap l_dev l_buffer sg_write patient w1].
      unfold queueing_write. rewrite (lk_dev _ _ _ L). reflexivity.
    + apply vdata_not_exn.
    + replace (with_world _ (LinuxWorld h1 (accept (hdr r) (map_queue block Q)) (l_buffer (world s))))
        with (with_world (at_send s r (Some me)) w2).
      * apply ev_finish; [reflexivity|apply vdata_not_exn].
      * unfold w2, map_queue, accept. cbn [q_script q_target q_accepted q_ready]. rewrite map_app. reflexivity.
Qed.

(** ** Answers one after the other *)
Lemma receive_all : forall q l q', handed_over tgt ok q l q' -> forall s n Q, linked s n Q -> map_queue e_label Q = q ->
  exists Q' s', linked s' n Q' /\ map_queue e_label Q' = q' /\ cb_log s' = cb_log s ++ map report l /\
    processed os s (map (fun _ => (0, fun _ => RespData None)) l) s'.
Proof.
  induction 1 as [q|q x a q1 l q' N Ha _ IH]; intros s n Q L E.
  - exists Q, s. split; [exact L|]. split; [exact E|]. split; [cbn; rewrite app_nil_r; reflexivity|constructor].
  - subst q. destruct (receive_one s n Q x a q1 L N Ha) as (Q1 & s1 & L1 & E1 & C1 & P1 & V1).
    destruct (IH s1 n Q1 L1 E1) as (Q2 & s2 & L2 & E2 & C2 & V2).
    exists Q2, s2. split; [exact L2|]. split; [exact E2|]. split; [rewrite C2, C1, <- app_assoc; reflexivity|].
    cbn [map]. eapply pr_cons; eauto.
Qed.

Lemma wait_all : forall s n Q l q', linked s n Q -> handed_over tgt ok (map_queue e_label Q) l q' -> outstanding q' = [] ->
  exists Q' s' v, linked s' n Q' /\ map_queue e_label Q' = q' /\ cb_log s' = cb_log s ++ map report l /\
    sync_wait_ends (wait os) s s' (Returned v).
Proof.
  intros s n Q l q' L H O. destruct (receive_all _ _ _ H s n Q L eq_refl) as (Q' & s' & L' & E' & C' & P').
  assert (Hp : pending s' = []).
  { apply length_zero_nil. rewrite (lk_count _ _ _ L'). rewrite <- E', outstanding_map in O. apply map_eq_nil in O. rewrite O. reflexivity. }
  exists Q', s'. destruct l as [|p l].
  - inversion P'; subst s'. exists (RVal VNone). split; [exact L'|]. split; [exact E'|]. split; [exact C'|].
    apply sync_wait_value. apply wait_empty. exact Hp.
  - destruct (wait_processed os s _ s' P' Hp VNone true (vnone_not_exn)) as (v' & q1 & Ev & X & _).
    destruct X as [-> ->]; [discriminate|]. exists (RVal (VData (DBool true))).
    split; [exact L'|]. split; [exact E'|]. split; [exact C'|]. apply sync_wait_value. exact Ev.
Qed.

Lemma wait_given_up : forall s n Q l q', linked s n Q -> handed_over tgt ok (map_queue e_label Q) l q' -> outstanding q' <> [] ->
  next (execute_label tgt) q' = None ->
  exists Q' s', linked s' n Q' /\ map_queue e_label Q' = after_silence (execute_label tgt) q' /\ cb_log s' = cb_log s ++ map report l /\
    sync_wait_ends (wait os) s s' (Threw (EIO 0)).
Proof.
  intros s n Q l q' L H O N. destruct (receive_all _ _ _ H s n Q L eq_refl) as (Q1 & s1 & L1 & E1 & C1 & P1).
  rewrite <- E1 in N. destruct (give_up s1 n Q1 L1 N) as (Q2 & s2 & L2 & E2 & C2 & D2 & V2).
  { intro F. apply O. rewrite <- E1, outstanding_map, F. reflexivity. }
  exists Q2, s2. split; [exact L2|]. split; [rewrite E2, E1; reflexivity|]. split; [rewrite C2; exact C1|].
  apply sync_wait_raise.
  assert (Hp : pending s1 <> []).
  { intro F. apply O. rewrite <- E1, outstanding_map. replace (outstanding Q1) with (@nil entry); auto.
    symmetry. apply length_zero_nil. rewrite <- (lk_count _ _ _ L1), F. reflexivity. }
  assert (V : forall v q, evaluates (wait os) (Send v) q s1 s2 (CallRaises (EIO 0))).
  { intros v q. apply (ev_call_raise _ _ _ s1 s1 s2 s2 (process_pending_response os) (wait os) (EIO 0));
      [|apply V2|apply ev_raise; rewrite wait_unfold; reflexivity].
    rewrite wait_unfold at 1. cbn [resume]. unfold is_queue_empty, zlen. destruct (pending s1); [congruence|]. reflexivity. }
  assert (W : forall v q, evaluates (wait os) (Send v) q s s2 (CallRaises (EIO 0))); [|apply W].
  clear - P1 V. induction P1; intros v q; [apply V|]. eapply ev_call; [|apply H0|apply IHP1; exact V].
  rewrite wait_unfold at 1. cbn [resume]. unfold is_queue_empty, zlen. destruct (pending st); [congruence|]. reflexivity.
Qed.

(** The answers to others while call() waits for its own. *)
Lemma quiet_all : forall me q l q', handed_over tgt ok q l q' -> forall s n Q, linked s n Q -> map_queue e_label Q = q ->
  ~ In me (map fst (cb_log s)) -> Forall (fun p => l_me (fst p) <> me) l ->
  exists Q' s', linked s' n Q' /\ map_queue e_label Q' = q' /\ cb_log s' = cb_log s ++ map report l /\
    processed_quiet os me s (map (fun _ => (0, fun _ => RespData None)) l) s'.
Proof.
  intros me. induction 1 as [q|q x a q1 l q' N Ha _ IH]; intros s n Q L E Hq Hl.
  - exists Q, s. split; [exact L|]. split; [exact E|]. split; [cbn; rewrite app_nil_r; reflexivity|constructor].
  - subst q. destruct (receive_one s n Q x a q1 L N Ha) as (Q1 & s1 & L1 & E1 & C1 & P1 & V1).
    pose proof (Forall_inv Hl) as X1. pose proof (Forall_inv_tail Hl) as X2. cbn [fst] in X1.
    destruct (IH s1 n Q1 L1 E1) as (Q2 & s2 & L2 & E2 & C2 & V2); auto.
    { rewrite C1, map_app, in_app_iff. intros [F|[F|[]]]; [auto|]. apply X1. exact F. }
    exists Q2, s2. split; [exact L2|]. split; [exact E2|]. split; [rewrite C2, C1, <- app_assoc; reflexivity|].
    cbn [map]. eapply pq_cons; eauto. apply quiet_log. exact Hq.
Qed.

Lemma handed_over_app : forall q l1 l2 q', handed_over tgt ok q (l1 ++ l2) q' ->
  exists qm, handed_over tgt ok q l1 qm /\ handed_over tgt ok qm l2 q'.
Proof.
  intros q l1. revert q. induction l1 as [|p l1 IH]; intros q l2 q' H.
  - exists q. split; [constructor|exact H].
  - cbn [app] in H. inversion H as [|z x1 a1 q1 lz z' N Ha R]; subst. destruct (IH _ _ _ R) as (qm & X & Y). exists qm. split; [|exact Y]. eapply ho_next; eauto.
Qed.
Lemma handed_over_perm : forall q l q', handed_over tgt ok q l q' -> Permutation (outstanding q) (map fst l ++ outstanding q').
Proof.
  induction 1 as [q|q x a q1 l q' N Ha _ IH]; [reflexivity|]. cbn [map fst app].
  rewrite (next_perm _ _ _ _ _ _ _ N). constructor. exact IH.
Qed.

Lemma call_given_up : forall s n Q me c others q', linked s n Q -> fits c -> zlen (outstanding (map_queue e_label Q)) < max ->
  in_time max n (map_queue e_label Q) ->
  handed_over tgt ok (accept (Label n me c) (map_queue e_label Q)) others q' -> ~ In (Label n me c) (map fst others) ->
  next (execute_label tgt) q' = None ->
  NoDup (map l_me (outstanding (accept (Label n me c) (map_queue e_label Q)))) -> ~ In me (map fst (cb_log s)) ->
  exists Q' s', linked s' (n + 1) Q' /\ map_queue e_label Q' = after_silence (execute_label tgt) q' /\
    cb_log s' = cb_log s ++ map report others /\ sync_wait_ends (call os me c) s s' (Threw (EIO 0)).
Proof.
  intros s n Q me c others q' L Hf Hroom Htime H Hmine Nx ND Hlog.
  destruct (submit_one s n Q me c L Hf Hroom Htime) as (Q0 & s0 & L0 & E0 & C0 & V0).
  pose proof (handed_over_perm _ _ _ H) as P.
  assert (Mine : In (Label n me c) (outstanding q')).
  { assert (X : In (Label n me c) (map fst others ++ outstanding q')).
    { eapply Permutation_in; [exact P|]. unfold outstanding, accept. cbn [q_accepted q_ready]. rewrite !in_app_iff. cbn [In]. auto. }
    rewrite in_app_iff in X. tauto. }
  assert (Ho : Forall (fun p => l_me (fst p) <> me) others).
  { apply (Permutation_NoDup (Permutation_map l_me P)) in ND. rewrite map_app in ND.
    rewrite Forall_forall. intros p Hp F. apply (in_map l_me) in Mine. cbn [l_me] in Mine. rewrite <- F in Mine.
    apply (in_map fst) in Hp. apply (in_map l_me) in Hp.
    apply in_split in Hp as (y1 & y2 & Hp). rewrite Hp, <- app_assoc in ND. cbn [app] in ND.
    apply NoDup_remove_2 in ND. apply ND. rewrite !in_app_iff. auto. }
  assert (Hlog0 : ~ In me (map fst (cb_log s0))) by (rewrite C0; exact Hlog).
  destruct (quiet_all me _ _ _ H s0 (n + 1) Q0 L0 E0 Hlog0 Ho) as (Q1 & s1 & L1 & E1 & C1 & V1).
  rewrite <- E1 in Nx. destruct (give_up s1 (n + 1) Q1 L1 Nx) as (Q2 & s2 & L2 & E2 & C2 & D2 & V2).
  { intro F. rewrite <- E1, outstanding_map, F in Mine. exact Mine. }
  exists Q2, s2. split; [exact L2|]. split; [rewrite E2, E1; reflexivity|]. split; [rewrite C2, C1, C0; reflexivity|].
  apply sync_wait_raise. eapply ev_call; [reflexivity|apply V0|].
  assert (Q1' : ~ In me (map fst (cb_log s1))).
  { rewrite C1, map_app, in_app_iff, map_map. intros [F|F]; [auto|]. apply in_map_iff in F as (p & F & Hp).
    rewrite Forall_forall in Ho. exact (Ho p Hp F). }
  assert (E3 : forall v q, evaluates (call_loop os me) (Send v) q s1 s2 (CallRaises (EIO 0))).
  { intros v q. apply (ev_call_raise _ _ _ s1 s1 s2 s2 (process_pending_response os) (call_loop os me) (EIO 0));
      [|apply V2|apply ev_raise; rewrite call_loop_unfold; reflexivity].
    rewrite call_loop_unfold at 1. cbn [resume]. rewrite (quiet_log me s1 Q1'). reflexivity. }
  assert (W : forall v q, evaluates (call_loop os me) (Send v) q s0 s2 (CallRaises (EIO 0))); [|apply W].
  clear - V1 E3. induction V1; intros v0 b0; [apply E3|]. eapply ev_call; [|apply H0|].
  - rewrite call_loop_unfold at 1. cbn [resume]. unfold quiet in H. rewrite H. reflexivity.
  - apply IHV1; auto.
Qed.

Lemma call_one : forall s n Q me c a others q', linked s n Q -> fits c -> zlen (outstanding (map_queue e_label Q)) < max ->
  in_time max n (map_queue e_label Q) ->
  handed_over tgt ok (accept (Label n me c) (map_queue e_label Q)) (others ++ [(Label n me c, a)]) q' ->
  NoDup (map l_me (outstanding (accept (Label n me c) (map_queue e_label Q)))) -> ~ In me (map fst (cb_log s)) ->
  exists Q' s', linked s' (n + 1) Q' /\ map_queue e_label Q' = q' /\
    cb_log s' = cb_log s ++ map report (others ++ [(Label n me c, a)]) /\
    sync_wait_ends (call os me c) s s' (user_sees (linux_expected c a)).
Proof.
  intros s n Q me c a others q' L Hf Hroom Htime H ND Hlog.
  destruct (submit_one s n Q me c L Hf Hroom Htime) as (Q0 & s0 & L0 & E0 & C0 & V0).
  pose proof (handed_over_perm _ _ _ H) as P. destruct (handed_over_app _ _ _ _ H) as (qm & H1 & H2).
  inversion H2 as [|z x1 a1 q1 l1 z' N Ha R]; subst. inversion R; subst. clear R H2.
  apply (Permutation_NoDup (Permutation_map l_me P)) in ND. rewrite !map_app in ND. apply NoDup_app_remove_r in ND.
  cbn [map fst l_me] in ND.
  assert (Ho : Forall (fun p => l_me (fst p) <> me) others).
  { rewrite Forall_forall. intros p Hp F. apply NoDup_remove_2 in ND. rewrite app_nil_r in ND. apply ND.
    rewrite <- F. rewrite map_map. apply in_map_iff. eauto. }
  assert (Hlog0 : ~ In me (map fst (cb_log s0))) by (rewrite C0; exact Hlog).
  destruct (quiet_all me _ _ _ H1 s0 (n + 1) Q0 L0 E0 Hlog0 Ho) as (Q1 & s1 & L1 & E1 & C1 & V1).
  rewrite <- E1 in N.
  destruct (receive_one s1 (n + 1) Q1 _ a q' L1 N Ha) as (Q2 & s2 & L2 & E2 & C2 & P2 & V2).
  exists Q2, s2. split; [exact L2|]. split; [exact E2|].
  assert (C : cb_log s2 = cb_log s ++ map report (others ++ [(Label n me c, a)])).
  { rewrite C2, C1, C0, map_app, <- app_assoc. reflexivity. }
  split; [exact C|]. apply sync_user_sees.
  assert (Q1' : ~ In me (map fst (cb_log s1))).
  { rewrite C1, map_app, in_app_iff, map_map. intros [F|F]; [auto|]. apply in_map_iff in F as (p & F & Hp).
    rewrite Forall_forall in Ho. exact (Ho p Hp F). }
  eapply ev_call; [reflexivity|apply V0|].
  assert (Hend : forall v q, not_exn v -> evaluates (call_loop os me) (Send v) q s2 s2 (outcome_of (linux_expected c a))).
  { intros v q Hv. eapply call_loop_end; [|exact Hv].
    rewrite (results_of_app me s1 (cb_log s1) eq_refl me (linux_expected c a)) by (rewrite C2; reflexivity).
    rewrite (quiet_log me s1 Q1'), Nat.eqb_refl. reflexivity. }
  assert (PQ : processed_quiet os me s1 [(0, fun _ => RespData None)] s2).
  { eapply pq_cons; [apply quiet_log; exact Q1'|exact V2|constructor]. }
  assert (E3 : forall v q, not_exn v -> evaluates (call_loop os me) (Send v) q s1 s2 (outcome_of (linux_expected c a)))
    by (eapply call_loop_quiet; eauto).
  clear - V1 E3. revert E3 V1. generalize (map (fun _ : label * answer => (0, fun _ : sgio => RespData None)) others). intros l E3 V1.
  assert (E4 : forall v q, not_exn v -> evaluates (call_loop os me) (Send v) q s0 s2 (outcome_of (linux_expected c a))).
  { induction V1; auto. intros v q Hv. eapply ev_call; [|apply H0|].
    - rewrite call_loop_unfold at 1. simpl. unfold quiet in H. rewrite H. reflexivity.
    - apply IHV1; auto. apply vdata_not_exn. }
  apply E4. apply vdata_not_exn.
Qed.

(** ** Programs *)
Lemma program : forall n q ops n' q' log l, queue_program tgt ok max n q ops n' q' log l ->
  forall s Q, linked s n Q -> map_queue e_label Q = q ->
  NoDup (map l_me (outstanding q) ++ callbacks ops) -> (forall me, In me (callbacks ops) -> ~ In me (map fst (cb_log s))) ->
  exists Q' s', linked s' n' Q' /\ map_queue e_label Q' = q' /\ cb_log s' = cb_log s ++ log /\ program_runs os s ops s' l.
Proof.
  induction 1 as [n q|n q me c ops n' q' log l Hf Hr Ht _ IH|n q me c ops n' q' log l Hr _ IH
    |n q me c a others q1 ops n' q' log l Hf Hr Ht Ho _ IH|n q me c ops n' q' log l Hr _ IH
    |n q all q1 ops n' q' log l Ho Hz _ IH
    |n q me c others q1 ops n' q' log l Hf Hr Ht Ho Hm Hn _ IH|n q some q1 ops n' q' log l Ho Hz Hn _ IH]; intros s Q L E ND Hl.
  - exists Q, s. split; [exact L|]. split; [exact E|]. split; [rewrite app_nil_r; reflexivity|constructor].
  - subst q. destruct (submit_one s n Q me c L Hf Hr Ht) as (Q1 & s1 & L1 & E1 & C1 & V1).
    destruct (IH s1 Q1 L1 E1) as (Q2 & s2 & L2 & E2 & C2 & R2).
    + eapply Permutation_NoDup; [|exact ND]. cbn [callbacks flat_map app].
      unfold outstanding, accept. cbn [q_accepted q_ready]. rewrite !map_app. cbn [map l_me].
      rewrite <- !app_assoc. apply Permutation_app_head. cbn [app]. symmetry. apply Permutation_middle.
    + intros m Hm. rewrite C1. apply Hl. cbn. auto.
    + exists Q2, s2. split; [exact L2|]. split; [exact E2|]. split; [rewrite C2, C1; reflexivity|].
      eapply pg_submit; [|exact R2]. apply sync_wait_value. apply V1.
  - subst q. destruct (IH s Q L eq_refl) as (Q2 & s2 & L2 & E2 & C2 & R2).
    + cbn [callbacks flat_map app] in ND. eapply NoDup_remove_1; exact ND.
    + intros m Hm. apply Hl. cbn. auto.
    + exists Q2, s2. split; [exact L2|]. split; [exact E2|]. split; [exact C2|].
      eapply pg_submit_fails; [|exact R2]. apply sync_wait_raise. apply full_send.
      unfold zlen in *. rewrite (lk_max _ _ _ L), (lk_count _ _ _ L). rewrite outstanding_map, map_length in Hr. exact Hr.
  - subst q.
    assert (P : Permutation (map l_me (outstanding (accept (Label n me c) (map_queue e_label Q))) ++ callbacks ops)
                            (map l_me (outstanding (map_queue e_label Q)) ++ callbacks (Call me c :: ops))).
    { cbn [callbacks flat_map app]. unfold outstanding, accept. cbn [q_accepted q_ready]. rewrite !map_app. cbn [map l_me].
      rewrite <- !app_assoc. apply Permutation_app_head. cbn [app]. apply Permutation_middle. }
    pose proof (Permutation_NoDup (Permutation_sym P) ND) as ND1.
    destruct (call_one s n Q me c a others q1 L Hf Hr Ht Ho) as (Q1 & s1 & L1 & E1 & C1 & V1).
    + apply NoDup_app_remove_r in ND1. exact ND1.
    + apply Hl. cbn. auto.
    + pose proof (Permutation_map l_me (handed_over_perm _ _ _ Ho)) as P1. rewrite map_app in P1.
      assert (ND2 : NoDup ((map l_me (map fst (others ++ [(Label n me c, a)])) ++ map l_me (outstanding q1)) ++ callbacks ops)).
      { eapply Permutation_NoDup; [|exact ND1]. apply Permutation_app_tail. exact P1. }
      destruct (IH s1 Q1 L1 E1) as (Q2 & s2 & L2 & E2 & C2 & R2).
      * rewrite <- app_assoc in ND2. apply NoDup_app_remove_l in ND2. exact ND2.
      * intros m Hm. rewrite C1, map_app, in_app_iff. intros [F|F]; [revert F; apply Hl; cbn; auto|].
        rewrite <- app_assoc in ND2. 
        assert (X : In m (map l_me (map fst (others ++ [(Label n me c, a)])))) by (rewrite map_map in *; exact F).
        apply in_split in X as (y1 & y2 & X). rewrite X, <- app_assoc in ND2. cbn [app] in ND2.
        apply NoDup_remove_2 in ND2. apply ND2. rewrite !in_app_iff. auto.
      * exists Q2, s2. split; [exact L2|]. split; [exact E2|]. split; [rewrite C2, C1, <- app_assoc; reflexivity|].
        eapply pg_call; eauto.
  - subst q. destruct (IH s Q L eq_refl) as (Q2 & s2 & L2 & E2 & C2 & R2).
    + cbn [callbacks flat_map app] in ND. eapply NoDup_remove_1; exact ND.
    + intros m Hm. apply Hl. cbn. auto.
    + exists Q2, s2. split; [exact L2|]. split; [exact E2|]. split; [exact C2|].
      eapply pg_call_fails; [|exact R2]. apply sync_wait_raise. apply full_call.
      unfold zlen in *. rewrite (lk_max _ _ _ L), (lk_count _ _ _ L). rewrite outstanding_map, map_length in Hr. exact Hr.
  - subst q. destruct (wait_all s n Q all q1 L Ho Hz) as (Q1 & s1 & v & L1 & E1 & C1 & V1).
    pose proof (Permutation_map l_me (handed_over_perm _ _ _ Ho)) as P1. rewrite Hz, app_nil_r in P1.
    assert (ND2 : NoDup (map l_me (map fst all) ++ callbacks ops)).
    { eapply Permutation_NoDup; [|exact ND]. apply Permutation_app_tail. exact P1. }
    destruct (IH s1 Q1 L1 E1) as (Q2 & s2 & L2 & E2 & C2 & R2).
    + rewrite Hz. cbn. apply NoDup_app_remove_l in ND2. exact ND2.
    + intros m Hm. rewrite C1, map_app, in_app_iff. intros [F|F]; [revert F; apply Hl; cbn; auto|].
      assert (X : In m (map l_me (map fst all))) by (rewrite map_map in *; exact F).
      apply in_split in X as (y1 & y2 & X). rewrite X, <- app_assoc in ND2. cbn [app] in ND2.
      apply NoDup_remove_2 in ND2. apply ND2. rewrite !in_app_iff. auto.
    + exists Q2, s2. split; [exact L2|]. split; [exact E2|]. split; [rewrite C2, C1, <- app_assoc; reflexivity|].
      eapply pg_wait; eauto.
  - subst q.
    assert (P : Permutation (map l_me (outstanding (accept (Label n me c) (map_queue e_label Q))) ++ callbacks ops)
                            (map l_me (outstanding (map_queue e_label Q)) ++ callbacks (Call me c :: ops))).
    { cbn [callbacks flat_map app]. unfold outstanding, accept. cbn [q_accepted q_ready]. rewrite !map_app. cbn [map l_me].
      rewrite <- !app_assoc. apply Permutation_app_head. cbn [app]. apply Permutation_middle. }
    pose proof (Permutation_NoDup (Permutation_sym P) ND) as ND1.
    destruct (call_given_up s n Q me c others q1 L Hf Hr Ht Ho Hm Hn) as (Q1 & s1 & L1 & E1 & C1 & V1).
    + apply NoDup_app_remove_r in ND1. exact ND1.
    + apply Hl. cbn. auto.
    + assert (P1 : Permutation (map l_me (outstanding (accept (Label n me c) (map_queue e_label Q))))
         (map l_me (map fst others) ++ map l_me (outstanding (after_silence (execute_label tgt) q1)))).
      { rewrite <- map_app. apply Permutation_map. rewrite <- silence_perm. exact (handed_over_perm _ _ _ Ho). }
      assert (ND2 : NoDup ((map l_me (map fst others) ++ map l_me (outstanding (after_silence (execute_label tgt) q1))) ++ callbacks ops)).
      { eapply Permutation_NoDup; [|exact ND1]. apply Permutation_app_tail. exact P1. }
      destruct (IH s1 Q1 L1 E1) as (Q2 & s2 & L2 & E2 & C2 & R2).
      * rewrite <- app_assoc in ND2. apply NoDup_app_remove_l in ND2. exact ND2.
      * intros m Hm'. rewrite C1, map_app, in_app_iff. intros [F|F]; [revert F; apply Hl; cbn; auto|].
        rewrite <- app_assoc in ND2.
        assert (X : In m (map l_me (map fst others))) by (rewrite map_map in *; exact F).
        apply in_split in X as (y1 & y2 & X). rewrite X, <- app_assoc in ND2. cbn [app] in ND2.
        apply NoDup_remove_2 in ND2. apply ND2. rewrite !in_app_iff. auto.
      * exists Q2, s2. split; [exact L2|]. split; [exact E2|]. split; [rewrite C2, C1, <- app_assoc; reflexivity|].
        eapply pg_call_fails; eauto.
  - subst q. destruct (wait_given_up s n Q some q1 L Ho Hz Hn) as (Q1 & s1 & L1 & E1 & C1 & V1).
    assert (P1 : Permutation (map l_me (outstanding (map_queue e_label Q)))
       (map l_me (map fst some) ++ map l_me (outstanding (after_silence (execute_label tgt) q1)))).
    { rewrite <- map_app. apply Permutation_map. rewrite <- silence_perm. exact (handed_over_perm _ _ _ Ho). }
    assert (ND2 : NoDup ((map l_me (map fst some) ++ map l_me (outstanding (after_silence (execute_label tgt) q1))) ++ callbacks ops)).
    { eapply Permutation_NoDup; [|exact ND]. apply Permutation_app_tail. exact P1. }
    destruct (IH s1 Q1 L1 E1) as (Q2 & s2 & L2 & E2 & C2 & R2).
    + rewrite <- app_assoc in ND2. apply NoDup_app_remove_l in ND2. exact ND2.
    + intros m Hm. rewrite C1, map_app, in_app_iff. intros [F|F]; [revert F; apply Hl; cbn; auto|].
      rewrite <- app_assoc in ND2.
      assert (X : In m (map l_me (map fst some))) by (rewrite map_map in *; exact F).
      apply in_split in X as (y1 & y2 & X). rewrite X, <- app_assoc in ND2. cbn [app] in ND2.
      apply NoDup_remove_2 in ND2. apply ND2. rewrite !in_app_iff. auto.
    + exists Q2, s2. split; [exact L2|]. split; [exact E2|]. split; [rewrite C2, C1, <- app_assoc; reflexivity|].
      eapply pg_wait_fails; eauto.
Qed.
End Linked.

Section Programs.
Context {T A : Type} (sense_of : bytes -> result unit) (tgt : target T) (timeout : Z).
Notation ok := (fun a => is_check_condition (a_status a) (a_driver a) = true -> sense_of (pad 255 (a_sense a)) = Ok tt).
Notation os := (linux_os (A := A) sense_of (patient tgt) timeout).

Lemma idle_linked : forall (s : executer sgio (linux_world (queue sg_hdr T))) script t, queue_idle s script t ->
  linked timeout (max_queue_size s) (packet_index s) s 0 (Queue script t [] []).
Proof.
  intros s script t (H1 & H2 & H3 & H4). constructor; auto; cbn; try (rewrite H1; cbn); try tauto; try constructor.
  rewrite Z.add_0_r, Z.mod_small; auto.
Qed.

Theorem queue_programs : forall s script t ops n' q' log l, queue_idle s script t ->
  queue_program tgt ok (max_queue_size s) 0 (Queue script t [] []) ops n' q' log l ->
  NoDup (callbacks ops) -> (forall me, In me (callbacks ops) -> ~ In me (map fst (cb_log s))) ->
  exists s', program_runs os s ops s' l /\ cb_log s' = cb_log s ++ log /\
    zlen (pending s') = zlen (outstanding q') /\
    (outstanding q' = [] -> queue_idle s' (q_script q') (q_target q')).
Proof.
  intros s script t ops n' q' log l Hi H ND Hl. pose proof (idle_linked _ _ _ Hi) as L.
  destruct Hi as (H1 & H2 & H3 & H4).
  destruct (program (A := A) sense_of tgt timeout (max_queue_size s) (packet_index s) H2 _ _ _ _ _ _ _ H s _ L eq_refl ND Hl)
    as (Q' & s' & L' & E' & C' & R').
  assert (Hz : zlen (pending s') = zlen (outstanding q')).
  { unfold zlen. rewrite (lk_count _ _ _ _ _ _ L'), <- E', outstanding_map, map_length. reflexivity. }
  exists s'. split; [exact R'|]. split; [exact C'|]. split; [exact Hz|]. intros O.
  split; [rewrite O in Hz; unfold zlen in Hz; apply length_zero_nil; cbn in Hz; lia|].
  rewrite (lk_max _ _ _ _ _ _ L'). split; [exact H2|].
  split; [rewrite (lk_index _ _ _ _ _ _ L'); apply Z.mod_pos_bound; lia|].
  rewrite (lk_dev _ _ _ _ _ _ L'). rewrite <- E', outstanding_map in O. apply map_eq_nil in O.
  unfold outstanding in O. apply app_eq_nil in O as [O1 O2]. apply map_eq_nil in O2.
  rewrite <- E'. unfold map_queue. cbn [q_script q_target]. rewrite O1, O2. reflexivity.
Qed.

Lemma batch_program : forall max cmds n t script acc all q1, 1 <= max -> Forall fits (map snd cmds) ->
  zlen acc + zlen cmds <= max -> Forall (fun x => n - zlen acc <= l_seq x) acc ->
  handed_over tgt ok (Queue script t (acc ++ numbered n cmds) []) all q1 -> outstanding q1 = [] ->
  queue_program tgt ok max n (Queue script t acc []) (batch cmds) (n + zlen cmds) q1 (map report all) (map (fun _ => Went) (batch cmds)).
Proof.
  intros max. induction cmds as [|[me c] cmds IH]; intros n t script acc all q1 Hm Hf Hz Hs Ho He.
  - cbn. cbn in Ho. rewrite app_nil_r in Ho. rewrite Z.add_0_r. rewrite <- (app_nil_r (map report all)).
    eapply qp_wait; eauto. constructor.
  - cbn in Hf. unfold zlen in Hz, Hs. cbn [length] in Hz.
    change (batch ((me, c) :: cmds)) with (Submit me c :: batch cmds). cbn [map].
    apply qp_submit.
    + exact (Forall_inv Hf).
    + unfold outstanding. cbn [q_accepted q_ready map]. rewrite app_nil_r. unfold zlen. lia.
    + unfold in_time, outstanding. cbn [q_accepted q_ready map]. rewrite app_nil_r.
      eapply Forall_impl; [|exact Hs]. cbn. intros x Hx. lia.
    + unfold accept. cbn [q_accepted q_ready q_script q_target].
      replace (n + zlen ((me, c) :: cmds)) with (n + 1 + zlen cmds) by (unfold zlen; cbn [length]; lia).
      apply IH; auto.
      * exact (Forall_inv_tail Hf).
      * unfold zlen. rewrite app_length. cbn [length]. lia.
      * unfold zlen. rewrite app_length. cbn [length]. rewrite Forall_app. split.
        -- eapply Forall_impl; [|exact Hs]. cbn. intros x Hx. lia.
        -- repeat constructor. cbn. lia.
      * rewrite <- app_assoc. exact Ho.
Qed.

Lemma batch_callbacks : forall cmds, callbacks (batch cmds) = map fst cmds.
Proof. induction cmds as [|[me c] cmds IH]; cbn; auto. f_equal. exact IH. Qed.

Theorem queue_batch : forall s script t cmds all q1, queue_idle s script t ->
  Forall fits (map snd cmds) -> zlen cmds <= max_queue_size s ->
  handed_over tgt ok (Queue script t (numbered 0 cmds) []) all q1 -> outstanding q1 = [] ->
  NoDup (map fst cmds) -> (forall me, In me (map fst cmds) -> ~ In me (map fst (cb_log s))) ->
  exists s', program_runs os s (batch cmds) s' (map (fun _ => Went) (batch cmds)) /\
    cb_log s' = cb_log s ++ map report all /\ queue_idle s' (q_script q1) (q_target q1).
Proof.
  intros s script t cmds all q1 Hi Hf Hz Ho He ND Hl.
  destruct (queue_programs s script t (batch cmds) (0 + zlen cmds) q1 (map report all) (map (fun _ => Went) (batch cmds)) Hi)
    as (s' & R & C & _ & I).
  - destruct Hi as (_ & H2 & _). apply batch_program; auto; lia.
  - rewrite batch_callbacks. exact ND.
  - rewrite batch_callbacks. exact Hl.
  - exists s'. auto.
Qed.

Lemma exactly_once : forall max n q ops n' q' log l, queue_program tgt ok max n q ops n' q' log l ->
  Permutation (map l_me (outstanding q) ++ sent ops l) (map fst log ++ map l_me (outstanding q')).
Proof.
  induction 1 as [n q|n q me c ops n' q' log l Hf Hr Ht _ IH|n q me c ops n' q' log l Hr _ IH
    |n q me c a others q1 ops n' q' log l Hf Hr Ht Ho _ IH|n q me c ops n' q' log l Hr _ IH
    |n q all q1 ops n' q' log l Ho Hz _ IH
    |n q me c others q1 ops n' q' log l Hf Hr Ht Ho Hm Hn _ IH|n q some q1 ops n' q' log l Ho Hz Hn _ IH]; cbn [sent].
  - rewrite app_nil_r. reflexivity.
  - rewrite <- IH. unfold outstanding, accept. cbn [q_accepted q_ready]. rewrite !map_app. cbn [map l_me].
    rewrite <- !app_assoc. apply Permutation_app_head. cbn [app]. symmetry. apply Permutation_middle.
  - exact IH.
  - pose proof (Permutation_map l_me (handed_over_perm sense_of tgt _ _ _ Ho)) as P. rewrite map_app in P.
    rewrite map_app. rewrite <- app_assoc, <- IH, app_assoc.
    replace (map fst (map report (others ++ [(Label n me c, a)]))) with (map l_me (map fst (others ++ [(Label n me c, a)])))
      by (rewrite !map_map; reflexivity).
    rewrite <- P. unfold outstanding, accept. cbn [q_accepted q_ready]. rewrite !map_app. cbn [map l_me].
    rewrite <- !app_assoc. apply Permutation_app_head. cbn [app]. symmetry. apply Permutation_middle.
  - exact IH.
  - pose proof (Permutation_map l_me (handed_over_perm sense_of tgt _ _ _ Ho)) as P. rewrite map_app in P.
    rewrite map_app, <- app_assoc, <- IH, app_assoc.
    replace (map fst (map report all)) with (map l_me (map fst all)) by (rewrite !map_map; reflexivity).
    rewrite <- P. reflexivity.
  - pose proof (Permutation_map l_me (handed_over_perm sense_of tgt _ _ _ Ho)) as P. rewrite map_app in P.
    rewrite map_app. rewrite <- app_assoc, <- IH, app_assoc.
    replace (map fst (map report others)) with (map l_me (map fst others)) by (rewrite !map_map; reflexivity).
    rewrite <- (Permutation_map l_me (silence_perm _ _ (execute_label tgt) q1)).
    rewrite <- P. unfold outstanding, accept. cbn [q_accepted q_ready]. rewrite !map_app. cbn [map l_me].
    rewrite <- !app_assoc. apply Permutation_app_head. cbn [app]. symmetry. apply Permutation_middle.
  - pose proof (Permutation_map l_me (handed_over_perm sense_of tgt _ _ _ Ho)) as P. rewrite map_app in P.
    rewrite map_app, <- app_assoc, <- IH, app_assoc.
    replace (map fst (map report some)) with (map l_me (map fst some)) by (rewrite !map_map; reflexivity).
    rewrite <- (Permutation_map l_me (silence_perm _ _ (execute_label tgt) q1)).
    rewrite <- P. reflexivity.
Qed.
End Programs.
