(** Greenlets that share an executer. *)
From Coq Require Import ZArith List Bool Lia Permutation PeanoNat.
From Verif Require Import Base BaseFacts Gen SpecGen GenFacts Executer SpecCall ExecFacts ExecGenFacts ExecStepFacts
  OsCommon OsLinux OsWin32 SpecSg SpecDrivers SpecSession LinuxFacts SessionFacts SpecQueue QueueFacts Greenlet SpecGreen.
Import ListNotations.
Open Scope Z_scope.

(** ** Segments *)
Section Segments.
Context {S D : Type} (sleeps : S -> nat).
Lemma segment_det : forall c s s1 g1, segment (D := D) sleeps c s s1 g1 -> forall s2 g2, segment sleeps c s s2 g2 -> s1 = s2 /\ g1 = g2.
Proof.
  induction 1 as [c s N|c s s1 e N X|c s s1 c1 N X B|c s s1 c1 sF g N X B R IH]; intros s2 g2 H2;
    inversion H2 as [c' s' N'|c' s' s1' e' N' X'|c' s' s1' c1' N' X' B'|c' s' s1' c1' s2' g' N' X' B' R']; subst;
    try contradiction; try (rewrite X in X'; inversion X'; subst); try contradiction; auto.
Qed.
Lemma on_step : forall c s s1 c1 s2 g, next_step true c s = (s1, Continue c1) -> sleeps s1 = sleeps s ->
  segment sleeps c1 s1 s2 g -> segment (D := D) sleeps c s s2 g.
Proof.
  intros c s s1 c1 s2 g X B R. eapply sg_on; eauto. intros F. unfold next_step in X. rewrite F in X. discriminate.
Qed.
Lemma switch_step : forall c s s1 c1, next_step true c s = (s1, Continue c1) -> sleeps s1 <> sleeps s ->
  segment (D := D) sleeps c s s1 (Ready c1).
Proof.
  intros c s s1 c1 X B. eapply sg_switch; eauto. intros F. unfold next_step in X. rewrite F in X. discriminate.
Qed.
Lemma raise_step : forall g rest v r s s1 e, next_step true (Cor (g :: rest) v r) s = (s1, Escape e) ->
  segment (D := D) sleeps (Cor (g :: rest) v r) s s1 (Over (Threw e)).
Proof. intros. apply sg_raise; [discriminate|assumption]. Qed.

(** One greenlet alone. *)
Lemma alone_run : forall n c s s' out, loop true n c s = Some (s', out) ->
  exists k gs', (1 <= k)%nat /\
    (forall gs, gs 0%nat = Ready c -> exists gs1, greenlets sleeps s gs (repeat 0%nat k) s' gs1 /\ gs1 0%nat = gs') /\
    gs' = Over (D := D) (match out with Finished r => Returned r | Blocked _ => Threw (EUser 0) | Raised e => Threw e end).
Proof.
  assert (Seg : forall n c s s' out, loop true n c s = Some (s', out) ->
    (exists g, segment sleeps c s s' g /\ g = Over (D := D) (match out with Finished r => Returned r | Blocked _ => Threw (EUser 0) | Raised e => Threw e end)) \/
    (exists m c1 s1, (m < n)%nat /\ segment sleeps c s s1 (Ready c1) /\ loop true m c1 s1 = Some (s', out))).
  { induction n as [|n IH]; intros c s s' out H; cbn [loop] in H.
    - destruct (stack c) eqn:N; [|discriminate]. inversion H; subst. left. eexists. split; [apply sg_done; exact N|reflexivity].
    - destruct (stack c) eqn:N.
      + inversion H; subst. left. eexists. split; [apply sg_done; exact N|reflexivity].
      + assert (Ne : stack c <> []) by (rewrite N; discriminate).
        destruct (next_step true c s) as [s1 [c1|c1|e]] eqn:X.
        * destruct (Nat.eq_dec (sleeps s1) (sleeps s)) as [B|B].
          -- destruct (IH _ _ _ _ H) as [(g' & R & Eg)|(m & c2 & s2 & L & R & Eg)].
             ++ left. exists g'. split; [eapply sg_on; eauto|exact Eg].
             ++ right. exists m, c2, s2. split; [lia|]. split; [eapply sg_on; eauto|exact Eg].
          -- right. exists n, c1, s1. split; [lia|]. split; [eapply sg_switch; eauto|exact H].
        * exfalso. clear - X. unfold next_step in X. destruct (stack c); [discriminate|].
          destruct (resume _ _ _) as [? [|?|[?|?|t] ?]]; try discriminate.
          -- unfold unwind in X. destruct l; discriminate.
          -- destruct (t s0) as [? [?|?]]; try discriminate. unfold unwind in X. destruct l; discriminate.
        * inversion H; subst. left. eexists. split; [eapply sg_raise; eauto|reflexivity]. }
  induction n as [n IH] using (well_founded_induction Wf_nat.lt_wf). intros c s s' out H.
  destruct (Seg _ _ _ _ _ H) as [(g & R & Eg)|(m & c1 & s1 & L & R & H1)].
  - exists 1%nat, g. split; [lia|]. split; [|exact Eg]. intros gs E. eexists. split; [eapply gl_run; [exact E|exact R|constructor]|reflexivity].
  - destruct (IH m L _ _ _ _ H1) as (k & gs' & Hk & Run & Eg). exists (Datatypes.S k), gs'. split; [lia|]. split; [|exact Eg].
    intros gs E. destruct (Run (fun x => if Nat.eqb x 0 then Ready c1 else gs x) eq_refl) as (gs1 & G1 & G2).
    exists gs1. split; [|exact G2]. cbn [repeat]. eapply gl_run; eauto.
Qed.
End Segments.

Lemma loop_mono : forall S D sync n (c : cor S D) s x, loop sync n c s = Some x -> forall m, (n <= m)%nat -> loop sync m c s = Some x.
Proof.
  induction n as [|n IH]; intros c s x H m L; cbn [loop] in H.
  - destruct m; cbn [loop]; destruct (stack c); try discriminate; exact H.
  - destruct m as [|m]; [lia|]. cbn [loop]. destruct (stack c); [exact H|]. destruct (next_step sync c s) as [s1 [c1|c1|e]]; auto.
    apply IH; [exact H|lia].
Qed.

Definition loop_end {S D} (o : outcome S D) : loop_out := match o with Returned r => Finished r | Threw e => Raised e end.
Lemma segment_loop : forall S D (sleeps : S -> nat) c s s1 g, segment (D := D) sleeps c s s1 g ->
  match g with
  | Over o => exists n, loop true n c s = Some (s1, loop_end o)
  | Ready c1 => forall n x, loop true n c1 s1 = Some x -> exists m, loop true m c s = Some x
  end.
Proof.
  induction 1 as [c s N|c s s1 e N X|c s s1 c1 N X B|c s s1 c1 s2 g N X B R IH].
  - exists 0%nat. cbn [loop]. rewrite N. reflexivity.
  - exists 1%nat. cbn [loop]. destruct (stack c); [congruence|]. rewrite X. reflexivity.
  - intros n x H. exists (Datatypes.S n). cbn [loop]. destruct (stack c); [congruence|]. rewrite X. exact H.
  - destruct g as [c2|o].
    + intros n x H. destruct (IH n x H) as [m M]. exists (Datatypes.S m). cbn [loop]. destruct (stack c); [congruence|]. rewrite X. exact M.
    + destruct IH as [m M]. exists (Datatypes.S m). cbn [loop]. destruct (stack c); [congruence|]. rewrite X. exact M.
Qed.

Lemma alone_back : forall S D (sleeps : S -> nat) s gs k s' gs', greenlets (D := D) sleeps s gs (repeat 0%nat k) s' gs' ->
  forall c o, gs 0%nat = Ready c -> gs' 0%nat = Over o -> exists n, loop true n c s = Some (s', loop_end o).
Proof.
  intros S D sleeps s gs k. revert s gs. induction k as [|k IH]; intros s gs s' gs' H c o E F; cbn [repeat] in H.
  - inversion H; subst. congruence.
  - inversion H as [|x1 x2 x3 c' s1 g1 x4 x5 x6 E' R G]; subst. rewrite E in E'. inversion E'; subst c'. clear E'.
    pose proof (segment_loop _ _ _ _ _ _ _ R) as L. destruct g1 as [c1|o1].
    + destruct (IH _ _ _ _ G c1 o eq_refl F) as [n N]. exact (L n _ N).
    + destruct k as [|k]; cbn [repeat] in G; inversion G; subst.
      * cbn in F. inversion F; subst. exact L.
      * cbn in *. discriminate.
Qed.

Lemma alone_iff : forall S D (sleeps : S -> nat) (g : gen S D) s s' o,
  sync_wait_ends g s s' o <->
  exists k gs', greenlets sleeps s (spawned 1 (fun _ => g)) (repeat 0%nat k) s' gs' /\ gs' 0%nat = Over o.
Proof.
  intros S D sleeps g s s' o. split.
  - intros [n H]. specialize (H n (le_n n)). unfold sync_wait in H.
    destruct (loop true n (coroutine_init g) s) as [[s1 out]|] eqn:E; [|discriminate].
    destruct (alone_run sleeps _ _ _ _ _ E) as (k & g' & _ & Run & Eg).
    destruct (Run (spawned 1 (fun _ => g)) eq_refl) as (gs1 & G & F). exists k, gs1.
    assert (s1 = s') by (destruct out; inversion H; auto). subst s1. split; [exact G|]. rewrite F, Eg.
    destruct out; inversion H; reflexivity.
  - intros (k & gs' & G & F). destruct (alone_back _ _ _ _ _ _ _ _ G (coroutine_init g) o eq_refl F) as [n N].
    exists n. intros m L. unfold sync_wait. rewrite (loop_mono _ _ _ _ _ _ _ N m L). destruct o; reflexivity.
Qed.

(** ** Linux *)
Section Linux.
Context {T A : Type} (sense_of : bytes -> result unit) (tgt : target T) (timeout max b : Z) (count : nat)
  (cmd : nat -> scsi_command) (q0 : queue label T).
Notation ex := (executer sgio (linux_world (queue sg_hdr T * nat))).
Notation drv := (friendly_sg (queueing tgt)).
Notation os := (linux_os (A := A) sense_of drv timeout).
Notation ok := (fun a => is_check_condition (a_status a) (a_driver a) = true -> sense_of (pad 255 (a_sense a)) = Ok tt).
Notation out := (outcome ex (dval (wire (option sg_hdr) A))).
Notation heap_of s := (l_heap (world s)).
Context (Hmax : 1 <= max <= 2 ^ 31) (Hcount : Z.of_nat count <= max) (Hfits : forall h, (h < count)%nat -> fits (cmd h))
  (Hok : forall t c d, ok (snd (tgt t c d))).

Definition slot (e : entry) : Z := slot_of max b (e_label e).
Definition me (e : entry) : nat := l_me (e_label e).

Inductive phase : Type := Fresh | Sending (idx : Z) | Holding (e : entry) (a : answer) | Done (o : out).
Definition raw_val (e : entry) (a : answer) : val (dval (wire (option sg_hdr) A)) :=
  VData (DObj (WRaw (Some (completed_hdr (block e) a)))).
Definition green_of (h : nat) (p : phase) : green :=
  match p with
  | Fresh => Ready (coroutine_init (call os h (cmd h)))
  | Sending idx => Ready (Cor [gen_end; send_tail idx; call_loop os h] (VData (DInt 88)) (RVal (VData (DInt 88))))
  | Holding e a => Ready (Cor [linux_receive_handle sense_of; process_received; call_loop os h] (raw_val e a) (RVal (raw_val e a)))
  | Done o => Over o
  end.
Definition upd (ph : nat -> phase) (h : nat) (p : phase) : nat -> phase := fun x => if Nat.eqb x h then p else ph x.

Definition waiting (s : ex) (e : entry) : Prop :=
  dict_get (slot e) (pending s) = Some (e_req e, Some (me e)) /\ results_of (me e) s = [].
Definition own_answer (ev : list event) (h : nat) (a : answer) : Prop := exists n, In (Got (Label n h (cmd h)) a) ev.

Record ginv (s : ex) (E : list entry) (Q : queue entry T) (ph : nat -> phase) (ev : list event) : Prop := Ginv {
  g_max : max_queue_size s = max;
  g_index : packet_index s = (b + Z.of_nat (length E)) mod max;
  g_dev : exists k, l_dev (world s) = (map_queue block Q, k);
  g_traffic : traffic tgt q0 ev (map_queue e_label Q);
  g_senders : senders ev = map me E;
  g_entries : forall i e, nth_error E i = Some e ->
    e_label e = Label (Z.of_nat i) (me e) (cmd (me e)) /\ sgio_create (slot e) (cmd (me e)) timeout (e_h0 e) = (e_h1 e, e_req e) /\
    (me e < count)%nat /\ (length (e_h1 e) <= length (heap_of s))%nat;
  g_nodup : NoDup (map me E);
  g_apart : forall i j e e', nth_error E i = Some e -> nth_error E j = Some e' -> (i < j)%nat -> (length (e_h1 e) <= length (e_h0 e'))%nat;
  g_incl : incl (outstanding Q) E;
  g_nodupQ : NoDup (outstanding Q);
  g_ready : Forall (fun p => ok (snd p)) (q_ready Q);
  g_keys : NoDup (map fst (pending s));
  g_keysE : forall k, In k (map fst (pending s)) -> exists e, In e E /\ slot e = k;
  g_out : forall e, In e (outstanding Q) -> waiting s e /\ region (heap_of s) (e_h0 e) (e_h1 e);
  g_held : forall h e a, ph h = Holding e a -> In e E /\ ~ In e (outstanding Q) /\ waiting s e /\ ok a /\ In (Got (e_label e) a) ev /\
    forall k, (length (e_h0 e) <= k < length (e_h1 e))%nat -> nth_error (heap_of s) k = nth_error (completed_mem (block e) a (e_h1 e)) k;
  g_one : forall h h' e a a', ph h = Holding e a -> ph h' = Holding e a' -> h = h';
  g_all : forall e, In e E -> In e (outstanding Q) \/ (exists h a, ph h = Holding e a) \/
    (exists a, results_of (me e) s = [linux_expected (cmd (me e)) a] /\ In (Got (e_label e) a) ev);
  g_fresh : forall h, ph h = Fresh -> (h < count)%nat /\ ~ In h (map me E) /\ results_of h s = [];
  g_sent : forall h, (exists idx, ph h = Sending idx) \/ (exists e a, ph h = Holding e a) -> In h (map me E);
  g_done : forall h o, ph h = Done o -> (h < count)%nat -> o = Threw (EIO 0) \/ exists a, own_answer ev h a /\ o = user_sees (linux_expected (cmd h) a)
}.

Lemma upd_same : forall ph h p, upd ph h p h = p.
Proof. intros. unfold upd. rewrite Nat.eqb_refl. reflexivity. Qed.
Lemma upd_other : forall ph h p x, x <> h -> upd ph h p x = ph x.
Proof. intros. unfold upd. apply Nat.eqb_neq in H. rewrite H. reflexivity. Qed.

Lemma entries_few : forall s E Q ph ev, ginv s E Q ph ev -> (length E <= count)%nat.
Proof.
  intros s E Q ph ev I. rewrite <- (map_length me), <- (seq_length count 0). apply NoDup_incl_length; [apply (g_nodup _ _ _ _ _ I)|].
  intros x Hx. apply in_map_iff in Hx as (e & <- & He). apply In_nth_error in He as (i & Hi).
  destruct (g_entries _ _ _ _ _ I i e Hi) as (_ & _ & L & _). apply in_seq. lia.
Qed.
Lemma entry_me : forall s E Q ph ev e e', ginv s E Q ph ev -> In e E -> In e' E -> me e = me e' -> e = e'.
Proof. intros. eapply (nodup_map_in _ _ me E); eauto. apply (g_nodup _ _ _ _ _ H). Qed.
Lemma slot_apart : forall s E Q ph ev i j e e', ginv s E Q ph ev -> nth_error E i = Some e -> nth_error E j = Some e' ->
  slot e = slot e' -> i = j.
Proof.
  intros s E Q ph ev i j e e' I Hi Hj F. pose proof (entries_few _ _ _ _ _ I) as L.
  assert (i < length E)%nat by (apply nth_error_Some; congruence). assert (j < length E)%nat by (apply nth_error_Some; congruence).
  destruct (g_entries _ _ _ _ _ I i e Hi) as (X & _). destruct (g_entries _ _ _ _ _ I j e' Hj) as (Y & _).
  unfold slot, slot_of in F. rewrite X, Y in F. cbn [l_seq] in F.
  assert (b + Z.of_nat i = b + Z.of_nat j); [|lia]. apply (residues_distinct max _ _ (b + max)); first [exact F|lia].
Qed.
Lemma slot_entry : forall s E Q ph ev e e', ginv s E Q ph ev -> In e E -> In e' E -> slot e = slot e' -> e = e'.
Proof.
  intros s E Q ph ev e e' I He He' F. apply In_nth_error in He as (i & Hi). apply In_nth_error in He' as (j & Hj).
  pose proof (slot_apart _ _ _ _ _ i j e e' I Hi Hj F). subst. congruence.
Qed.
Lemma results_log : forall h (s s' : ex) x rp, cb_log s' = cb_log s ++ [(x, rp)] ->
  results_of h s' = results_of h s ++ (if Nat.eqb x h then [rp] else []).
Proof. intros h s s' x rp H. unfold results_of. rewrite H, filter_app, map_app. cbn. destruct (Nat.eqb x h); reflexivity. Qed.
Lemma call_resume : forall h v (s : ex), resume (call_loop os h) (Send v) s =
  match results_of h s with
  | [] => (s, Yield (YGen (process_pending_response os)) (call_loop os h))
  | RespExn e :: _ => (s, Raise e)
  | RespData d :: _ => (s, Yield (YVal (val_of_data d)) process_end)
  end.
Proof. intros. rewrite call_loop_unfold at 1. reflexivity. Qed.
Lemma call_throw : forall h e (s : ex), resume (call_loop os h) (Throw e) s = (s, Raise e).
Proof. intros. rewrite call_loop_unfold at 1. reflexivity. Qed.

(** Starting: a command is sent. *)
Lemma start_green : forall s E Q ph ev h, ginv s E Q ph ev -> ph h = Fresh ->
  exists s1 e, segment linux_sleeps (coroutine_init (call os h (cmd h))) s s1 (green_of h (Sending (slot e))) /\
    ginv s1 (E ++ [e]) (accept e Q) (upd ph h (Sending (slot e))) (ev ++ [Sent (Label (Z.of_nat (length E)) h (cmd h))]) /\
    e_label e = Label (Z.of_nat (length E)) h (cmd h) /\ cb_log s1 = cb_log s.
Proof.
  intros s E Q ph ev h I Hph. destruct (g_fresh _ _ _ _ _ I h Hph) as (Hh & Hnew & Hres).
  destruct (g_dev _ _ _ _ _ I) as [kd Hdev].
  assert (Hlt : (length E < count)%nat).
  { assert (length (h :: map me E) <= length (seq 0 count))%nat as L.
    - apply NoDup_incl_length; [constructor; [exact Hnew|apply (g_nodup _ _ _ _ _ I)]|].
      intros x [<-|Hx]; [apply in_seq; lia|]. apply in_map_iff in Hx as (y & <- & Hy). apply In_nth_error in Hy as (i & Hi).
      destruct (g_entries _ _ _ _ _ I i y Hi) as (_ & _ & L & _). apply in_seq. lia.
    - cbn [length] in L. rewrite map_length, seq_length in L. lia. }
  set (idx := packet_index s). set (hp := heap_of s).
  destruct (sgio_create idx (cmd h) timeout hp) as [h1 r] eqn:Hcr.
  set (e := Entry (Label (Z.of_nat (length E)) h (cmd h)) r hp h1).
  assert (Hidx : slot e = idx) by (unfold idx; rewrite (g_index _ _ _ _ _ I); reflexivity).
  assert (Hslots : forall y, In y E -> slot y <> idx).
  { intros y Hy F. apply In_nth_error in Hy as (i & Hi). destruct (g_entries _ _ _ _ _ I i y Hi) as (X & _).
    assert (i < length E)%nat by (apply nth_error_Some; congruence). rewrite <- Hidx in F. unfold slot, slot_of in F.
    rewrite X in F. cbn [l_seq e e_label] in F.
    assert (b + Z.of_nat i = b + Z.of_nat (length E)); [|lia]. apply (residues_distinct max _ _ (b + max)); first [exact F|lia]. }
  assert (Hnone : dict_get idx (pending s) = None).
  { apply dict_get_notin. intros Hin. apply (g_keysE _ _ _ _ _ I) in Hin as (y & Hy & F). exact (Hslots y Hy F). }
  assert (Hroom : zlen (pending s) < max_queue_size s).
  { rewrite (g_max _ _ _ _ _ I). unfold zlen.
    assert (length (map fst (pending s)) <= length (map slot E))%nat as L.
    { apply NoDup_incl_length; [apply (g_keys _ _ _ _ _ I)|]. intros k Hk. apply (g_keysE _ _ _ _ _ I) in Hk as (y & Hy & <-). apply in_map. exact Hy. }
    rewrite !map_length in L. lia. }
  destruct (created_pointers timeout _ _ _ _ _ Hcr) as ((new & En) & _).
  set (w1 := LinuxWorld h1 (l_dev (world s)) (l_buffer (world s))).
  set (w2 := LinuxWorld h1 (map_queue block (accept e Q), Datatypes.S kd) (l_buffer (world s))).
  set (s2 := with_world (at_send s r (Some h)) w2).
  assert (Hb : send_begin os (cmd h) (Some h) s = (with_world (at_send s r (Some h)) w1, Ok (idx, r))).
  { apply begin_ok; [exact Hroom|]. cbn [os_prepare_to_send linux_os]. unfold linux_prepare, at_prepare. cbn [world with_index].
    fold hp idx. rewrite Hcr. reflexivity. }
  assert (Hpend : pending s2 = pending s ++ [(idx, (r, Some h))]) by (apply dict_get_none_set; exact Hnone).
  assert (Hin : forall y, In y (outstanding (accept e Q)) <-> y = e \/ In y (outstanding Q)).
  { intros y. unfold outstanding, accept. cbn [q_accepted q_ready]. rewrite <- app_assoc, !in_app_iff. cbn [In]. intuition auto. }
  assert (NewE : ~ In e E).
  { intros F. apply Hnew. change h with (me e). apply in_map. exact F. }
  assert (Hlen2 : heap_of s2 = h1) by reflexivity.
  assert (Keep : forall y, In y E -> waiting s y -> waiting s2 y).
  { intros y Hy [W1 W2]. split; [|exact W2]. change (pending s2) with (dict_set idx (r, Some h) (pending s)).
    rewrite dict_get_set_neq by (apply Hslots; exact Hy). exact W1. }
  exists s2, e. split; [|split; [|split; reflexivity]].
  - unfold coroutine_init. eapply on_step; [reflexivity|reflexivity|]. cbn [args cres].
    eapply on_step; [unfold next_step; cbn [stack args input_of send resume]; rewrite Hb; reflexivity|reflexivity|].
    cbn [args cres]. unfold green_of. rewrite Hidx. eapply switch_step.
    + unfold next_step. cbn [stack args input_of]. cbn [os_send linux_os linux_send resume world with_world l_heap l_dev l_buffer sg_write friendly_sg queueing w1].
      unfold queueing_write. rewrite Hdev. cbn [fst snd after_sleep].
      replace (accept (hdr r) (map_queue block Q)) with (map_queue block (accept e Q)); [reflexivity|].
      unfold map_queue, accept. cbn [q_script q_target q_accepted q_ready]. rewrite map_app. reflexivity.
    + unfold linux_sleeps. cbn. rewrite Hdev. cbn. lia.
  - constructor.
    + apply (g_max _ _ _ _ _ I).
    + cbn. rewrite (g_index _ _ _ _ _ I), (g_max _ _ _ _ _ I), app_length. cbn [length].
      rewrite Zplus_mod_idemp_l. f_equal. lia.
    + exists (Datatypes.S kd). reflexivity.
    + replace (map_queue e_label (accept e Q)) with (accept (Label (Z.of_nat (length E)) h (cmd h)) (map_queue e_label Q)).
      * apply tr_sent. apply (g_traffic _ _ _ _ _ I).
      * unfold map_queue, accept. cbn [q_script q_target q_accepted q_ready]. rewrite map_app. reflexivity.
    + unfold senders. rewrite flat_map_app, map_app. f_equal. exact (g_senders _ _ _ _ _ I).
    + intros i y Hi. destruct (Nat.lt_ge_cases i (length E)) as [L|L].
      * rewrite nth_error_app1 in Hi by lia. destruct (g_entries _ _ _ _ _ I i y Hi) as (X1 & X2 & X3 & X4).
        split; [exact X1|]. split; [exact X2|]. split; [exact X3|]. rewrite Hlen2, En, app_length. fold hp in X4. lia.
      * rewrite nth_error_app2 in Hi by lia. destruct (i - length E)%nat as [|j] eqn:Ei; [|destruct j; discriminate].
        inversion Hi; subst y. split; [unfold e at 1; cbn; f_equal; lia|]. split; [rewrite Hidx; exact Hcr|]. split; [exact Hh|]. rewrite Hlen2. cbn. lia.
    + rewrite map_app. cbn [map]. eapply Permutation_NoDup; [apply Permutation_cons_append|]. constructor; [exact Hnew|apply (g_nodup _ _ _ _ _ I)].
    + intros i j y y' Hi Hj L. assert (j < length (E ++ [e]))%nat as Lj by (apply nth_error_Some; congruence).
      rewrite app_length in Lj. cbn [length] in Lj. rewrite nth_error_app1 in Hi by lia.
      destruct (Nat.eq_dec j (length E)) as [->|Ne].
      * rewrite nth_error_app2, Nat.sub_diag in Hj by lia. inversion Hj; subst y'. cbn. apply (g_entries _ _ _ _ _ I i y Hi).
      * rewrite nth_error_app1 in Hj by lia. eapply (g_apart _ _ _ _ _ I i j); eauto.
    + intros y Hy. apply Hin in Hy as [->|Hy]; apply in_or_app; [right; left; reflexivity|left; apply (g_incl _ _ _ _ _ I); exact Hy].
    + unfold outstanding, accept. cbn [q_accepted q_ready]. rewrite <- app_assoc. cbn [app].
      eapply Permutation_NoDup; [apply Permutation_middle|]. constructor; [|apply (g_nodupQ _ _ _ _ _ I)].
      intros F. apply NewE. apply (g_incl _ _ _ _ _ I). exact F.
    + exact (g_ready _ _ _ _ _ I).
    + change (pending s2) with (dict_set idx (r, Some h) (pending s)). apply dict_set_keys. apply (g_keys _ _ _ _ _ I).
    + intros k Hk. rewrite Hpend, map_app, in_app_iff in Hk. destruct Hk as [Hk|[<-|[]]].
      * apply (g_keysE _ _ _ _ _ I) in Hk as (y & Hy & F). exists y. split; [apply in_or_app; auto|exact F].
      * exists e. split; [apply in_or_app; right; left; reflexivity|exact Hidx].
    + intros y Hy. apply Hin in Hy as [->|Hy].
      * split; [|split; [cbn; lia|auto]]. split; [|exact Hres]. change (pending s2) with (dict_set idx (r, Some h) (pending s)).
        rewrite Hidx. apply dict_get_set_eq.
      * destruct (g_out _ _ _ _ _ I y Hy) as (W & R1 & R2). split; [apply Keep; [apply (g_incl _ _ _ _ _ I); exact Hy|exact W]|].
        rewrite Hlen2, En. fold hp in R1, R2. split; [rewrite app_length; lia|]. intros p Hp. rewrite nth_error_app1 by lia. apply R2. exact Hp.
    + intros x y a Hx. destruct (Nat.eq_dec x h) as [->|Ne]; [rewrite upd_same in Hx; discriminate|]. rewrite upd_other in Hx by exact Ne.
      destruct (g_held _ _ _ _ _ I x y a Hx) as (B1 & B2 & B3 & B4 & B5 & B6).
      split; [apply in_or_app; auto|]. split; [intros F; apply Hin in F as [->|F]; auto|]. split; [apply Keep; auto|]. split; [exact B4|].
      split; [apply in_or_app; auto|]. intros k Hk. rewrite Hlen2, En. apply In_nth_error in B1 as (i & Hi).
      destruct (g_entries _ _ _ _ _ I i y Hi) as (_ & _ & _ & X4). fold hp in X4, B6. rewrite nth_error_app1 by lia. apply B6. exact Hk.
    + intros x x' y a a' Hx Hx'. destruct (Nat.eq_dec x h) as [->|Ne]; [rewrite upd_same in Hx; discriminate|]. rewrite upd_other in Hx by exact Ne.
      destruct (Nat.eq_dec x' h) as [->|Ne']; [rewrite upd_same in Hx'; discriminate|]. rewrite upd_other in Hx' by exact Ne'.
      eapply (g_one _ _ _ _ _ I); eauto.
    + intros y Hy. apply in_app_iff in Hy as [Hy|[<-|[]]]; [|left; apply Hin; auto].
      destruct (g_all _ _ _ _ _ I y Hy) as [F|[(x & a & F)|(a & F1 & F2)]].
      * left. apply Hin. auto.
      * right. left. exists x, a. rewrite upd_other; [exact F|]. intros ->. congruence.
      * right. right. exists a. split; [exact F1|apply in_or_app; auto].
    + intros x Hx. destruct (Nat.eq_dec x h) as [->|Ne]; [rewrite upd_same in Hx; discriminate|]. rewrite upd_other in Hx by exact Ne.
      destruct (g_fresh _ _ _ _ _ I x Hx) as (F1 & F2 & F3). split; [exact F1|]. split; [|exact F3].
      rewrite map_app, in_app_iff. intros [F|[F|[]]]; [auto|]. apply Ne. symmetry. exact F.
    + intros x Hx. rewrite map_app, in_app_iff. destruct (Nat.eq_dec x h) as [->|Ne]; [right; left; reflexivity|]. left.
      apply (g_sent _ _ _ _ _ I). rewrite upd_other in Hx by exact Ne. exact Hx.
    + intros x o Hx Lx. destruct (Nat.eq_dec x h) as [->|Ne]; [rewrite upd_same in Hx; discriminate|]. rewrite upd_other in Hx by exact Ne.
      destruct (g_done _ _ _ _ _ I x o Hx Lx) as [F|(a & (n & F1) & F2)]; [left; exact F|right]. exists a. split; [exists n; apply in_or_app; auto|exact F2].
Qed.

Lemma fetch_ok : forall X (run : X -> T -> T * answer), (forall x t, ok (snd (run x t))) ->
  forall script t acc ready x a q, Forall (fun p => ok (snd p)) ready -> fetch run script t acc ready = Some (x, a, q) ->
  ok a /\ Forall (fun p => ok (snd p)) (q_ready q).
Proof.
  intros X run Hr. induction script as [|[i|i|] rest IH]; intros t acc ready x a q F H; cbn [fetch] in H; [discriminate| | |discriminate].
  - destruct (nth_error acc i) as [y|]; [|eapply IH; eauto]. specialize (Hr y t). destruct (run y t) as [t' a'].
    eapply IH; [|exact H]. apply Forall_app. split; [exact F|]. constructor; [exact Hr|constructor].
  - destruct (nth_error ready i) as [[y a']|] eqn:N; [|eapply IH; eauto]. inversion H; subst.
    pose proof (Permutation_Forall (without_perm _ _ _ _ N) F) as P. inversion P; subst. split; assumption.
Qed.

Lemma finish_phase : forall s E Q ph ev h o idx, ginv s E Q ph ev -> ph h = Sending idx ->
  ((h < count)%nat -> o = Threw (EIO 0) \/ exists a, own_answer ev h a /\ o = user_sees (linux_expected (cmd h) a)) ->
  ginv s E Q (upd ph h (Done o)) ev.
Proof.
  intros s E Q ph ev h o idx [] Hph Ho. constructor; auto.
  - intros x y a Hx. destruct (Nat.eq_dec x h) as [->|Ne]; [rewrite upd_same in Hx; discriminate|]. rewrite upd_other in Hx by exact Ne. eauto.
  - intros x x' y a a' Hx Hx'. destruct (Nat.eq_dec x h) as [->|Ne]; [rewrite upd_same in Hx; discriminate|]. rewrite upd_other in Hx by exact Ne.
    destruct (Nat.eq_dec x' h) as [->|Ne']; [rewrite upd_same in Hx'; discriminate|]. rewrite upd_other in Hx' by exact Ne'. eauto.
  - intros y Hy. destruct (g_all0 y Hy) as [F|[(x & a & F)|F]]; auto. right. left. exists x, a. rewrite upd_other; [exact F|]. intros ->. congruence.
  - intros x Hx. destruct (Nat.eq_dec x h) as [->|Ne]; [rewrite upd_same in Hx; discriminate|]. rewrite upd_other in Hx by exact Ne. eauto.
  - intros x Hx. destruct (Nat.eq_dec x h) as [->|Ne].
    + rewrite upd_same in Hx. destruct Hx as [(i & F)|(y & a & F)]; discriminate.
    + rewrite upd_other in Hx by exact Ne. eauto.
  - intros x o' Hx. destruct (Nat.eq_dec x h) as [->|Ne].
    + rewrite upd_same in Hx. inversion Hx; subst. exact Ho.
    + rewrite upd_other in Hx by exact Ne. eauto.
Qed.

Definition nextE := next (fun e => execute_label tgt (e_label e)).

(** Looking for the own answer, and reading if it is not there. *)
Lemma look_green : forall s E Q ph ev h idx v r, ginv s E Q ph ev -> ph h = Sending idx -> input_of v = Send v ->
  exists s1 p Q1 ev1, segment linux_sleeps (Cor [call_loop os h] v r) s s1 (green_of h p) /\
    ginv s1 E Q1 (upd ph h p) ev1 /\ cb_log s1 = cb_log s /\
    match results_of h s with
    | rp :: _ => p = Done (user_sees rp) /\ Q1 = Q /\ ev1 = ev
    | [] => match nextE Q with
            | None => p = Done (Threw (EIO 0)) /\ Q1 = Q /\ ev1 = ev
            | Some (e, a, Q') => p = Holding e a /\ Q1 = Q' /\ ev1 = ev ++ [Got (e_label e) a]
            end
    end.
Proof.
  intros s E Q ph ev h idx v r I Hph Hv.
  pose proof (g_sent _ _ _ _ _ I h (or_introl (ex_intro _ idx Hph))) as Hin. apply in_map_iff in Hin as (e0 & Me0 & In0).
  destruct (results_of h s) as [|rp rest] eqn:Hres.
  2: { destruct (g_all _ _ _ _ _ I e0 In0) as [F|[(x & a & F)|(a & F1 & F2)]].
    - destruct (g_out _ _ _ _ _ I e0 F) as ((_ & W) & _). congruence.
    - destruct (g_held _ _ _ _ _ I x e0 a F) as (_ & _ & (_ & W) & _). congruence.
    - rewrite Me0, Hres in F1. inversion F1; subst rp rest.
      assert (Hown : own_answer ev h a).
      { apply In_nth_error in In0 as (i & Hi). destruct (g_entries _ _ _ _ _ I i e0 Hi) as (X & _). exists (Z.of_nat i).
        rewrite X, Me0 in F2. exact F2. }
      exists s, (Done (user_sees (linux_expected (cmd h) a))), Q, ev. split; [|split; [|auto]].
      + destruct (linux_expected (cmd h) a) as [d|ex] eqn:El.
        * eapply on_step; [unfold next_step; cbn [stack args]; rewrite Hv, call_resume, Hres; reflexivity|reflexivity|].
          eapply on_step; [unfold next_step; cbn [stack args]; destruct d; reflexivity|reflexivity|]. cbn [args cres].
          replace (green_of h (Done (user_sees (RespData d)))) with (Over (S := ex) (D := dval (wire (option sg_hdr) A)) (Returned (RVal (val_of_data d)))) by (destruct d; reflexivity).
          apply (sg_done linux_sleeps (Cor [] (val_of_data d) (RVal (val_of_data d)))). reflexivity.
        * apply raise_step. unfold next_step. cbn [stack args]. rewrite Hv, call_resume, Hres. reflexivity.
      + eapply finish_phase; eauto. }
  assert (Live0 : exists rq, dict_get (slot e0) (pending s) = Some rq).
  { destruct (g_all _ _ _ _ _ I e0 In0) as [F|[(x & a & F)|(a & F1 & F2)]].
    - destruct (g_out _ _ _ _ _ I e0 F) as ((W & _) & _). eauto.
    - destruct (g_held _ _ _ _ _ I x e0 a F) as (_ & _ & (W & _) & _). eauto.
    - rewrite Me0, Hres in F1. discriminate. }
  assert (Hne : is_queue_empty s = false).
  { destruct Live0 as [rq W]. unfold is_queue_empty, zlen. destruct (pending s); [discriminate|]. cbn [length]. apply Z.eqb_neq. lia. }
  destruct (g_dev _ _ _ _ _ I) as [kd Hdev]. set (hp := heap_of s).
  assert (Hrun : next (fun q t => tgt t (described_cdb q hp) (described_data q hp)) (map_queue block Q) =
    match nextE Q with Some (e, a, Q') => Some (block e, a, map_queue block Q') | None => None end).
  { rewrite next_map. replace (next _ Q) with (nextE Q); [reflexivity|]. unfold nextE, next. apply fetch_same.
    intros y Hy t. assert (In y (outstanding Q)) as Oy by (unfold outstanding; apply in_or_app; auto).
    destruct (g_out _ _ _ _ _ I y Oy) as (_ & R). pose proof (g_incl _ _ _ _ _ I y Oy) as Ey. apply In_nth_error in Ey as (i & Hi).
    destruct (g_entries _ _ _ _ _ I i y Hi) as (X1 & X2 & X3 & _).
    destruct (region_described timeout _ _ _ _ _ _ X2 R (Hfits _ X3)) as [D1 D2]. unfold execute_label, block.
    rewrite X1. cbn [l_cmd]. fold hp in D1, D2. rewrite D1, D2. reflexivity. }
  assert (Hsteps : forall s3 g, segment linux_sleeps (Cor [linux_receive sense_of drv; process_received; call_loop os h] VNone (RGen (linux_receive sense_of drv))) s s3 g ->
    segment linux_sleeps (Cor [call_loop os h] v r) s s3 g).
  { intros s3 g R. eapply on_step; [unfold next_step; cbn [stack args]; rewrite Hv, call_resume, Hres; reflexivity|reflexivity|].
    eapply on_step; [unfold next_step, process_pending_response; cbn [stack args input_of resume]; rewrite Hne; reflexivity|reflexivity|].
    exact R. }
  destruct (nextE Q) as [[[e a] Q']|] eqn:N.
  - pose proof (next_perm _ _ _ _ _ _ _ N) as P.
    assert (Oe : In e (outstanding Q)) by (eapply Permutation_in; [symmetry; exact P|left; reflexivity]).
    pose proof (g_incl _ _ _ _ _ I e Oe) as Ee. pose proof Ee as Ee'. apply In_nth_error in Ee' as (ie & Hie).
    destruct (g_entries _ _ _ _ _ I ie e Hie) as (X1 & X2 & X3 & X4).
    pose proof (Permutation_NoDup P (g_nodupQ _ _ _ _ _ I)) as ND. apply NoDup_cons_iff in ND as [Nin ND'].
    assert (Sub : forall y, In y (outstanding Q') -> In y (outstanding Q) /\ y <> e).
    { intros y Hy. split; [eapply Permutation_in; [symmetry; exact P|right; exact Hy]|]. intros ->. auto. }
    destruct (g_out _ _ _ _ _ I e Oe) as (We & Re1 & Re2). fold hp in Re1, Re2.
    destruct (fetch_ok entry _ (fun x t => Hok t _ _) _ _ _ _ _ _ _ (g_ready _ _ _ _ _ I) N) as [Oka Rdy].
    assert (Outside : forall i y p, nth_error E i = Some y -> y <> e -> (length (e_h0 y) <= p < length (e_h1 y))%nat ->
      nth_error (completed_mem (block e) a hp) p = nth_error hp p).
    { intros i y p Hi Ney Hp. unfold block. apply (outside_untouched timeout _ _ _ _ _ a hp p X2).
      destruct (Nat.lt_trichotomy i ie) as [L|[->|L]].
      - left. pose proof (g_apart _ _ _ _ _ I i ie y e Hi Hie L). lia.
      - congruence.
      - right. pose proof (g_apart _ _ _ _ _ I ie i e y Hie Hi L). lia. }
    set (s1 := with_world s (LinuxWorld (completed_mem (block e) a hp) (map_queue block Q', Datatypes.S kd) (l_buffer (world s)))).
    exists s1, (Holding e a), Q', (ev ++ [Got (e_label e) a]). split; [|split; [|split; [reflexivity|auto]]].
    + apply Hsteps. eapply switch_step.
      * unfold next_step. cbn [stack args input_of]. unfold linux_receive. cbn [resume sg_read friendly_sg queueing].
        unfold queueing_read. rewrite Hdev. cbn [fst snd]. fold hp. rewrite Hrun. cbn [after_sleep]. reflexivity.
      * unfold linux_sleeps, s1. cbn. rewrite Hdev. cbn. lia.
    + destruct I. constructor; auto.
      * exists (Datatypes.S kd). reflexivity.
      * eapply tr_got; [exact g_traffic0|]. rewrite next_map. fold (nextE Q). rewrite N. reflexivity.
      * unfold senders. rewrite flat_map_app. cbn [flat_map]. rewrite app_nil_r. exact g_senders0.
      * intros i y Hi. destruct (g_entries0 i y Hi) as (Y1 & Y2 & Y3 & Y4). split; [exact Y1|]. split; [exact Y2|]. split; [exact Y3|].
        change (heap_of s1) with (completed_mem (block e) a hp). rewrite mem_length. exact Y4.
      * intros y Hy. apply g_incl0. apply Sub. exact Hy.
      * intros y Hy. destruct (Sub y Hy) as [Oy Ny]. destruct (g_out0 y Oy) as (W & R1 & R2). split; [exact W|].
        change (heap_of s1) with (completed_mem (block e) a hp). split; [rewrite mem_length; exact R1|]. intros p Hp.
        pose proof (g_incl0 y Oy) as Ey. apply In_nth_error in Ey as (i & Hi). rewrite (Outside i y p Hi Ny Hp). apply R2. exact Hp.
      * intros x y a' Hx. destruct (Nat.eq_dec x h) as [->|Ne].
        -- rewrite upd_same in Hx. inversion Hx; subst y a'. split; [exact Ee|]. split; [exact Nin|]. split; [exact We|]. split; [exact Oka|].
           split; [apply in_or_app; right; left; reflexivity|]. intros k Hk. change (heap_of s1) with (completed_mem (block e) a hp).
           apply nth_completed. apply Re2. exact Hk.
        -- rewrite upd_other in Hx by exact Ne. destruct (g_held0 x y a' Hx) as (B1 & B2 & B3 & B4 & B5 & B6).
           split; [exact B1|]. split; [intros F; apply Sub in F; tauto|]. split; [exact B3|]. split; [exact B4|]. split; [apply in_or_app; auto|].
           intros k Hk. change (heap_of s1) with (completed_mem (block e) a hp). apply In_nth_error in B1 as (i & Hi).
           rewrite (Outside i y k Hi) by (auto; intros ->; auto). apply B6. exact Hk.
      * intros x x' y a1 a2 Hx Hx'. destruct (Nat.eq_dec x h) as [->|Ne], (Nat.eq_dec x' h) as [->|Ne']; auto.
        -- rewrite upd_same in Hx. rewrite upd_other in Hx' by exact Ne'. inversion Hx; subst y.
           destruct (g_held0 x' e a2 Hx') as (_ & B2 & _). contradiction.
        -- rewrite upd_same in Hx'. rewrite upd_other in Hx by exact Ne. inversion Hx'; subst y.
           destruct (g_held0 x e a1 Hx) as (_ & B2 & _). contradiction.
        -- rewrite upd_other in Hx by exact Ne. rewrite upd_other in Hx' by exact Ne'. eauto.
      * intros y Hy. destruct (g_all0 y Hy) as [F|[(x & a' & F)|(a' & F1 & F2)]].
        -- pose proof (Permutation_in _ P F) as [<-|F']; [|auto]. right. left. exists h, a. apply upd_same.
        -- right. left. exists x, a'. rewrite upd_other; [exact F|]. intros ->. congruence.
        -- right. right. exists a'. split; [exact F1|apply in_or_app; auto].
      * intros x Hx. destruct (Nat.eq_dec x h) as [->|Ne]; [rewrite upd_same in Hx; discriminate|]. rewrite upd_other in Hx by exact Ne. apply (g_fresh0 x Hx).
      * intros x Hx. destruct (Nat.eq_dec x h) as [->|Ne]; [rewrite <- Me0; apply in_map; exact In0|]. rewrite upd_other in Hx by exact Ne. eauto.
      * intros x o Hx Lx. destruct (Nat.eq_dec x h) as [->|Ne]; [rewrite upd_same in Hx; discriminate|]. rewrite upd_other in Hx by exact Ne.
        destruct (g_done0 x o Hx Lx) as [F|(a' & (n & F1) & F2)]; [left; exact F|right]. exists a'. split; [exists n; apply in_or_app; auto|exact F2].
  - exists s, (Done (Threw (EIO 0))), Q, ev. split; [|split; [|auto]].
    + apply Hsteps.
      assert (Hs : with_world s (LinuxWorld hp (l_dev (world s)) (l_buffer (world s))) = s).
      { unfold hp, with_world. destruct s as [sp si sm sl [wh wd wb]]. reflexivity. }
      eapply on_step; [|reflexivity|].
      * unfold next_step. cbn [stack args input_of]. unfold linux_receive. cbn [resume sg_read friendly_sg queueing].
        unfold queueing_read. rewrite Hdev. cbn [fst snd]. fold hp. rewrite Hrun. cbn [after_sleep]. rewrite <- Hdev, Hs. reflexivity.
      * eapply on_step; [unfold next_step, process_received; cbn [stack args input_of resume unwind]; reflexivity|reflexivity|].
        apply raise_step. unfold next_step. cbn [stack args input_of]. rewrite call_throw. reflexivity.
    + eapply finish_phase; eauto.
Qed.

(** Handing over the answer that was read. *)
Lemma deliver_green : forall s E Q ph ev h e a, ginv s E Q ph ev -> ph h = Holding e a ->
  exists s2, (forall s3 g, segment linux_sleeps (Cor [call_loop os h] (VData (DBool true)) (RVal (VData (DBool true)))) s2 s3 g ->
      match green_of h (Holding e a) with Ready c => segment linux_sleeps c s s3 g | Over _ => False end) /\
    ginv s2 E Q (upd ph h (Sending 0)) ev /\ cb_log s2 = cb_log s ++ [(me e, linux_expected (cmd (me e)) a)].
Proof.
  intros s E Q ph ev h e a I Hph. destruct (g_held _ _ _ _ _ I h e a Hph) as (Ee & Ne & (Wg & Wr) & Oka & Gt & Mem).
  pose proof Ee as Ee'. apply In_nth_error in Ee' as (ie & Hie). destruct (g_entries _ _ _ _ _ I ie e Hie) as (X1 & X2 & X3 & X4).
  set (hp := heap_of s) in *. pose proof (Hfits _ X3) as Hf.
  assert (Hpid : pack_id (block e) = slot e).
  { pose proof (created_sense timeout _ _ _ _ _ X2) as (_ & _ & _ & Hp). unfold block. rewrite Hp.
    apply c_int_small. unfold slot, slot_of. pose proof (Z.mod_pos_bound (b + l_seq (e_label e)) max). lia. }
  destruct (created_pointers timeout _ _ _ _ _ X2) as (_ & (ps & Hps & Bps) & _ & _ & Hdb).
  assert (Hh : linux_handle sense_of (Some (completed_hdr (block e) a)) s = Ok (linux_expected (cmd (me e)) a, slot e)).
  { destruct (created_bounds timeout _ _ _ _ _ X2) as [_ Hb2].
    rewrite (linux_handle_spec sense_of s _ (e_req e) (Some (me e)) (pad 255 (a_sense a))).
    - cbn [status host_status driver_status completed_hdr pack_id]. rewrite Hpid. fold hp.
      replace (match data_buffer (e_req e) with Some p => nth_error hp p | None => None end)
        with (match data_buffer (e_req e) with Some p => nth_error (completed_mem (block e) a (e_h1 e)) p | None => None end).
      + unfold block at 1. rewrite (created_data_read timeout _ _ _ _ _ a X2 Hf). reflexivity.
      + destruct (data_buffer (e_req e)) as [p|]; auto. symmetry. apply Mem. apply Hdb. reflexivity.
    - cbn [pack_id completed_hdr]. rewrite Hpid. exact Wg.
    - cbn [status driver_status completed_hdr sbp]. intros Hcc. split; auto. fold hp.
      rewrite <- (created_sense_read timeout _ _ _ _ _ a X2). unfold string_at, block. rewrite Hps.
      fold (block e). rewrite Mem by exact Bps. reflexivity.
    - intros p Hp. specialize (Hdb p Hp). fold hp. lia.
    - exact Hb2. }
  set (s2 := with_log (with_pending s (dict_del (slot e) (pending s))) (cb_log s ++ [(me e, linux_expected (cmd (me e)) a)])).
  assert (Hres : forall x, results_of x s2 = results_of x s ++ (if Nat.eqb (me e) x then [linux_expected (cmd (me e)) a] else [])).
  { intros x. apply results_log. reflexivity. }
  assert (Keep : forall y, In y E -> y <> e -> waiting s y -> waiting s2 y).
  { intros y Hy Ny [W1 W2]. split.
    - change (pending s2) with (dict_del (slot e) (pending s)). rewrite dict_get_del_neq; [exact W1|].
      intros F. apply Ny. eapply slot_entry; eauto.
    - rewrite Hres, W2. destruct (Nat.eqb_spec (me e) (me y)) as [F|F]; [|reflexivity].
      exfalso. apply Ny. symmetry. eapply entry_me; eauto. }
  exists s2. split; [|split; [|reflexivity]].
  - intros s3 g R. cbn [green_of].
    assert (Hrec : resume (linux_receive_handle (D := queue sg_hdr T * nat) (A := A) sense_of) (input_of (raw_val e a)) s =
      (s, Yield (YVal (VData (DPair (linux_expected (cmd (me e)) a) (slot e)))) gen_end)).
    { unfold linux_receive_handle, raw_val, input_of, resume. rewrite Hh. reflexivity. }
    eapply on_step; [unfold next_step; cbn [stack args]; rewrite Hrec; reflexivity|reflexivity|].
    eapply on_step; [reflexivity|reflexivity|]. cbn [args cres].
    eapply on_step; [unfold next_step, process_received; cbn [stack args input_of resume]; unfold complete; rewrite Wg; reflexivity|reflexivity|].
    eapply on_step; [reflexivity|reflexivity|]. cbn [args cres]. exact R.
  - assert (I' := I). destruct I'. constructor; auto.
    + change (pending s2) with (dict_del (slot e) (pending s)). apply dict_del_keys. exact g_keys0.
    + intros k Hk. apply g_keysE0. change (pending s2) with (dict_del (slot e) (pending s)) in Hk.
      clear - Hk. induction (pending s) as [|[j w] l IH]; [exact Hk|]. cbn in *. destruct (j =? slot e); cbn in *; tauto.
    + intros y Hy. destruct (g_out0 y Hy) as (W & R). split; [|exact R]. apply Keep; auto. intros ->. auto.
    + intros x y a' Hx. destruct (Nat.eq_dec x h) as [->|Nx]; [rewrite upd_same in Hx; discriminate|]. rewrite upd_other in Hx by exact Nx.
      destruct (g_held0 x y a' Hx) as (B1 & B2 & B3 & B4 & B5 & B6). split; [exact B1|]. split; [exact B2|]. split; [|auto].
      apply Keep; auto. intros ->. apply Nx. eapply g_one0; eauto.
    + intros x x' y a1 a2 Hx Hx'. destruct (Nat.eq_dec x h) as [->|Nx]; [rewrite upd_same in Hx; discriminate|]. rewrite upd_other in Hx by exact Nx.
      destruct (Nat.eq_dec x' h) as [->|Nx']; [rewrite upd_same in Hx'; discriminate|]. rewrite upd_other in Hx' by exact Nx'. eauto.
    + intros y Hy. destruct (Nat.eq_dec (me y) (me e)) as [F|F].
      * pose proof (entry_me _ _ _ _ _ _ _ I Hy Ee F). subst y. right. right. exists a. split; [|exact Gt].
        rewrite Hres, Wr, Nat.eqb_refl. reflexivity.
      * destruct (g_all0 y Hy) as [G|[(x & a' & G)|(a' & G1 & G2)]]; auto.
        -- right. left. exists x, a'. rewrite upd_other; [exact G|]. intros ->. rewrite Hph in G. inversion G; subst. congruence.
        -- right. right. exists a'. split; [|exact G2]. rewrite Hres, G1. destruct (Nat.eqb_spec (me e) (me y)); [congruence|reflexivity].
    + intros x Hx. destruct (Nat.eq_dec x h) as [->|Nx]; [rewrite upd_same in Hx; discriminate|]. rewrite upd_other in Hx by exact Nx.
      destruct (g_fresh0 x Hx) as (F1 & F2 & F3). split; [exact F1|]. split; [exact F2|]. rewrite Hres, F3.
      destruct (Nat.eqb_spec (me e) x) as [<-|]; [|reflexivity]. exfalso. apply F2. apply in_map. exact Ee.
    + intros x Hx. destruct (Nat.eq_dec x h) as [->|Nx]; [apply g_sent0; right; eauto|]. rewrite upd_other in Hx by exact Nx. eauto.
    + intros x o Hx. destruct (Nat.eq_dec x h) as [->|Nx]; [rewrite upd_same in Hx; discriminate|]. rewrite upd_other in Hx by exact Nx. eauto.
Qed.

(** Any turn of any greenlet. *)
Definition ended (p : phase) : nat := match p with Done _ => 1 | _ => 0 end.
Lemma turn_green : forall s E Q ph ev h c, ginv s E Q ph ev -> green_of h (ph h) = Ready c ->
  exists s1 E1 Q1 p ev1, segment linux_sleeps c s s1 (green_of h p) /\ ginv s1 E1 Q1 (upd ph h p) ev1 /\
    map me E1 = (if existsb (Nat.eqb h) (map me E) then map me E else map me E ++ [h]) /\
    (length ev1 + ended p = Datatypes.S (length ev))%nat.
Proof.
  intros s E Q ph ev h c I Hc.
  assert (Old : In h (map me E) -> existsb (Nat.eqb h) (map me E) = true).
  { intros H. apply existsb_exists. exists h. split; [exact H|apply Nat.eqb_refl]. }
  destruct (ph h) as [|idx|e a|o] eqn:Hph; cbn [green_of] in Hc; inversion Hc; subst c.
  - destruct (start_green _ _ _ _ _ h I Hph) as (s1 & e & Sg & I1 & Le & _).
    exists s1, (E ++ [e]), (accept e Q), (Sending (slot e)), (ev ++ [Sent (Label (Z.of_nat (length E)) h (cmd h))]).
    split; [exact Sg|]. split; [exact I1|]. split; [|cbn [ended]; rewrite app_length; cbn; lia].
    destruct (g_fresh _ _ _ _ _ I h Hph) as (_ & F & _). destruct (existsb (Nat.eqb h) (map me E)) eqn:X.
    + apply existsb_exists in X as (y & Hy & Ey). apply Nat.eqb_eq in Ey. subst y. contradiction.
    + rewrite map_app. cbn [map]. unfold me at 2. rewrite Le. reflexivity.
  - pose proof (g_sent _ _ _ _ _ I h (or_introl (ex_intro _ idx Hph))) as Hin.
    destruct (look_green _ _ _ _ _ h idx (VData (DInt 88)) (RVal (VData (DInt 88))) I Hph eq_refl) as (s1 & p & Q1 & ev1 & Sg & I1 & _ & Cs).
    exists s1, E, Q1, p, ev1. split.
    + eapply on_step; [reflexivity|reflexivity|]. eapply on_step; [reflexivity|reflexivity|]. exact Sg.
    + split; [exact I1|]. split; [rewrite (Old Hin); reflexivity|]. destruct (results_of h s).
      * destruct (nextE Q) as [[[e a] Q']|]; destruct Cs as (-> & -> & ->); cbn [ended]; [rewrite app_length; cbn; lia|lia].
      * destruct Cs as (-> & -> & ->). cbn [ended]. lia.
  - pose proof (g_sent _ _ _ _ _ I h (or_intror (ex_intro _ e (ex_intro _ a Hph)))) as Hin.
    destruct (deliver_green _ _ _ _ _ h e a I Hph) as (s2 & Sg0 & I0 & _).
    destruct (look_green _ _ _ _ _ h 0 (VData (DBool true)) (RVal (VData (DBool true))) I0 (upd_same _ _ _) eq_refl) as (s1 & p & Q1 & ev1 & Sg & I1 & _ & Cs).
    exists s1, E, Q1, p, ev1. split; [exact (Sg0 _ _ Sg)|]. split; [|split; [rewrite (Old Hin); reflexivity|]].
    + assert (Ext : forall ph1 ph2, (forall x, ph1 x = ph2 x) -> ginv s1 E Q1 ph1 ev1 -> ginv s1 E Q1 ph2 ev1).
      { intros p1 p2 X []. constructor; auto; intros; rewrite <- ?X in *; eauto.
        - destruct (g_all0 e0 H) as [F|[(x & a0 & F)|F]]; auto. right. left. exists x, a0. rewrite <- X. exact F. }
      eapply Ext; [|exact I1]. intros x. unfold upd. destruct (Nat.eqb x h); reflexivity.
    + destruct (results_of h s2).
      * destruct (nextE Q) as [[[e1 a1] Q']|]; destruct Cs as (-> & -> & ->); cbn [ended]; [rewrite app_length; cbn; lia|lia].
      * destruct Cs as (-> & -> & ->). cbn [ended]. lia.
Qed.

Lemma first_turns_same : forall l seen seen', (forall x, In x seen <-> In x seen') -> first_turns seen l = first_turns seen' l.
Proof.
  induction l as [|h l IH]; intros seen seen' H; cbn [first_turns]; [reflexivity|].
  assert (X : existsb (Nat.eqb h) seen = existsb (Nat.eqb h) seen').
  { apply eq_true_iff_eq. rewrite !existsb_exists. split; intros (y & Hy & Ey); exists y; split; auto; apply H; exact Hy. }
  rewrite X. destruct (existsb (Nat.eqb h) seen'); [apply IH; exact H|]. f_equal. apply IH.
  intros x. cbn [In]. rewrite H. reflexivity.
Qed.

Definition done_count (ph : nat -> phase) : nat := list_sum (map (fun h => ended (ph h)) (seq 0 count)).
Lemma sum_upd : forall ph h p l, NoDup l -> In h l -> ended (ph h) = 0%nat ->
  list_sum (map (fun x => ended (upd ph h p x)) l) = (list_sum (map (fun x => ended (ph x)) l) + ended p)%nat.
Proof.
  intros ph h p l. induction l as [|y l IH]; intros ND Hin Z0; [destruct Hin|]. cbn [map list_sum fold_right].
  apply NoDup_cons_iff in ND as [Nin ND']. destruct Hin as [->|Hin].
  - rewrite upd_same, Z0.
    replace (map (fun x => ended (upd ph h p x)) l) with (map (fun x => ended (ph x)) l).
    + unfold list_sum. lia.
    + apply map_ext_in. intros x Hx. rewrite upd_other; [reflexivity|]. intros ->. contradiction.
  - rewrite upd_other by (intros ->; contradiction). unfold list_sum in *. rewrite IH by auto. lia.
Qed.

Lemma run_green : forall s gs schedule s' gs', greenlets linux_sleeps s gs schedule s' gs' ->
  forall E Q ph ev, ginv s E Q ph ev -> (forall h, gs h = green_of h (ph h)) -> (forall h, (count <= h)%nat -> exists o, ph h = Done o) ->
  exists E' Q' ph' ev', ginv s' E' Q' ph' ev' /\ (forall h, gs' h = green_of h (ph' h)) /\ (forall h, (count <= h)%nat -> exists o, ph' h = Done o) /\
    map me E' = map me E ++ first_turns (map me E) schedule /\
    (length ev' + done_count ph' = length schedule + length ev + done_count ph)%nat.
Proof.
  induction 1 as [s gs|s gs h c s1 g1 schedule s' gs' Hg Sg _ IH]; intros E Q ph ev I Hgs Hout.
  - exists E, Q, ph, ev. split; [exact I|]. split; [exact Hgs|]. split; [exact Hout|]. split; [cbn; rewrite app_nil_r; reflexivity|]. cbn. lia.
  - rewrite Hgs in Hg. destruct (turn_green _ _ _ _ _ h c I Hg) as (s1' & E1 & Q1 & p & ev1 & Sg' & I1 & Me & Len).
    destruct (segment_det _ _ _ _ _ Sg _ _ Sg') as [-> ->]. clear Sg'.
    assert (Hh : (h < count)%nat).
    { destruct (Nat.lt_ge_cases h count) as [L|L]; [exact L|]. destruct (Hout h L) as [o Ho]. rewrite Ho in Hg. discriminate. }
    destruct (IH E1 Q1 (upd ph h p) ev1 I1) as (E' & Q' & ph' & ev' & I' & Hgs' & Hout' & Me' & Len').
    + intros x. unfold upd. destruct (Nat.eqb_spec x h) as [->|]; [reflexivity|apply Hgs].
    + intros x Hx. rewrite upd_other by lia. auto.
    + exists E', Q', ph', ev'. split; [exact I'|]. split; [exact Hgs'|]. split; [exact Hout'|]. split.
      * rewrite Me', Me. cbn [first_turns]. destruct (existsb (Nat.eqb h) (map me E)); [reflexivity|].
        rewrite <- app_assoc. cbn [app]. do 2 f_equal. apply first_turns_same. intros x. rewrite in_app_iff. cbn [In]. intuition auto.
      * rewrite Len'. cbn [length]. unfold done_count at 1. rewrite (sum_upd ph h p (seq 0 count)).
        -- fold (done_count ph). lia.
        -- apply seq_NoDup.
        -- apply in_seq. lia.
        -- destruct (ph h); try reflexivity. discriminate.
Qed.

Definition gots (ev : list event) : nat := length (filter (fun e => match e with Got _ _ => true | Sent _ => false end) ev).
Lemma traffic_count : forall q l q', traffic tgt q l q' -> (gots l + length (outstanding q') = length (senders l) + length (outstanding q))%nat.
Proof.
  intros q l q'. induction 1 as [q|q l q1 x H IH|q l q1 x a q2 H IH N].
  - cbn. lia.
  - unfold gots, senders in *. rewrite filter_app, flat_map_app, !app_length. cbn [filter flat_map length app].
    unfold outstanding, accept in *. cbn [q_accepted q_ready]. rewrite !app_length in *. cbn [length]. lia.
  - unfold gots, senders in *. rewrite filter_app, flat_map_app, !app_length. cbn [filter flat_map length app].
    pose proof (Permutation_length (next_perm _ _ _ _ _ _ _ N)) as P. cbn [length] in P. lia.
Qed.
Lemma event_count : forall l, length l = (gots l + length (senders l))%nat.
Proof.
  induction l as [|[x|x a] l IH]; [reflexivity| |]; unfold gots, senders in *; cbn [filter flat_map length app]; lia.
Qed.
Lemma done_bound : forall ph, (done_count ph <= count)%nat.
Proof.
  intros ph. unfold done_count. rewrite <- (seq_length count 0) at 2. induction (seq 0 count) as [|x l IH]; [cbn; lia|].
  cbn [map list_sum fold_right length]. unfold list_sum in *. destruct (ph x); cbn [ended]; lia.
Qed.

(** ** The beginning *)
Definition ph0 (h : nat) : phase := if Nat.ltb h count then Fresh else Done (Returned (RVal VNone)).
Lemma begin_green : forall (s : ex) script t, unused count script t s -> max_queue_size s = max -> packet_index s = b -> q0 = quiet script t ->
  ginv s [] (quiet script t) ph0 [] /\ (forall h, spawned count (fun h => call os h (cmd h)) h = green_of h (ph0 h)) /\
  (forall h, (count <= h)%nat -> exists o, ph0 h = Done o) /\ done_count ph0 = 0%nat.
Proof.
  intros s script t (Hp & Hi & _ & Hd & Hl) Hm Hb Hq. split; [|split; [|split]].
  - constructor.
    + exact Hm.
    + cbn [length]. rewrite Z.add_0_r, Z.mod_small by lia. exact Hb.
    + exists (snd (l_dev (world s))). destruct (l_dev (world s)) as [qd k]. cbn [fst snd] in *. subst qd. reflexivity.
    + rewrite Hq. constructor.
    + reflexivity.
    + intros i e H. destruct i; discriminate.
    + constructor.
    + intros i j e e' H. destruct i; discriminate.
    + intros x [].
    + constructor.
    + constructor.
    + rewrite Hp. constructor.
    + rewrite Hp. intros k [].
    + intros e [].
    + intros h e a H. unfold ph0 in H. destruct (Nat.ltb h count); discriminate.
    + intros h h' e a a' H. unfold ph0 in H. destruct (Nat.ltb h count); discriminate.
    + intros e [].
    + intros h H. unfold ph0 in H. destruct (Nat.ltb_spec h count) as [L|L]; [|discriminate]. split; [exact L|]. split; [intros []|].
      apply quiet_log. apply Hl. exact L.
    + intros h [(idx & H)|(e & a & H)]; unfold ph0 in H; destruct (Nat.ltb h count); discriminate.
    + intros h o H L. unfold ph0 in H. destruct (Nat.ltb_spec h count); [discriminate|lia].
  - intros h. unfold spawned, ph0. destruct (Nat.ltb h count); reflexivity.
  - intros h L. unfold ph0. destruct (Nat.ltb_spec h count); [lia|]. eauto.
  - unfold done_count. assert (X : forall l, (forall h, In h l -> (h < count)%nat) -> list_sum (map (fun h => ended (ph0 h)) l) = 0%nat).
    { induction l as [|h l IH]; intros H; [reflexivity|]. cbn [map list_sum fold_right]. unfold list_sum in *. rewrite IH by (intros; apply H; right; assumption).
      unfold ph0. destruct (Nat.ltb_spec h count) as [L|L]; [reflexivity|]. specialize (H h (or_introl eq_refl)). lia. }
    apply X. intros h H. apply in_seq in H. lia.
Qed.

(** ** Rounds *)
Lemma greenlets_app : forall S D (sleeps : S -> nat) s gs l1 s1 gs1, greenlets (D := D) sleeps s gs l1 s1 gs1 ->
  forall l2 s2 gs2, greenlets sleeps s1 gs1 l2 s2 gs2 -> greenlets sleeps s gs (l1 ++ l2) s2 gs2.
Proof. induction 1; intros l2 sx gx H2; cbn [app]; [exact H2|]. eapply gl_run; eauto. Qed.
Lemma greenlets_snoc : forall S D (sleeps : S -> nat) s gs l s1 gs1 h c s2 g, greenlets (D := D) sleeps s gs l s1 gs1 ->
  gs1 h = Ready c -> segment sleeps c s1 s2 g -> greenlets sleeps s gs (l ++ [h]) s2 (fun x => if Nat.eqb x h then g else gs1 x).
Proof. intros. eapply greenlets_app; [eassumption|]. eapply gl_run; [eassumption|eassumption|constructor]. Qed.

Lemma seq_snoc : forall k, seq 0 (Datatypes.S k) = seq 0 k ++ [k].
Proof. intros. rewrite seq_S. reflexivity. Qed.
Lemma gs_upd : forall gs ph h p, (forall x, gs x = green_of x (ph x)) ->
  forall x, (fun x => if Nat.eqb x h then green_of h p else gs x) x = green_of x (upd ph h p x).
Proof. intros gs ph h p H x. cbn. unfold upd. destruct (Nat.eqb_spec x h) as [->|]; [reflexivity|apply H]. Qed.

Lemma round_one : forall s gs ev, ginv s [] (quiet (q_script q0) (q_target q0)) ph0 ev -> q0 = quiet (q_script q0) (q_target q0) -> (forall h, gs h = green_of h (ph0 h)) ->
  forall k, (k <= count)%nat -> exists s1 gs1 E Q ph ev1, greenlets linux_sleeps s gs (seq 0 k) s1 gs1 /\ ginv s1 E Q ph ev1 /\
    (forall h, gs1 h = green_of h (ph h)) /\ cb_log s1 = cb_log s /\ map e_label E = map (nth_label cmd) (seq 0 k) /\
    map_queue e_label Q = all_sent cmd k q0 /\ (forall h, (h < k)%nat -> exists i, ph h = Sending i) /\
    (forall h, (k <= h)%nat -> ph h = ph0 h).
Proof.
  intros s gs ev I0 Hq Hgs. induction k as [|k IH]; intros Hk.
  - exists s, gs, [], (quiet (q_script q0) (q_target q0)), ph0, ev. split; [constructor|]. split; [exact I0|]. split; [exact Hgs|].
    split; [reflexivity|]. split; [reflexivity|]. split; [rewrite Hq at 3; reflexivity|]. split; [intros h L; lia|auto].
  - destruct IH as (s1 & gs1 & E & Q & ph & ev1 & R & I & G & C & L & M & P1 & P2); [lia|].
    assert (Fk : ph k = Fresh). { rewrite P2 by lia. unfold ph0. destruct (Nat.ltb_spec k count); [reflexivity|lia]. }
    destruct (start_green _ _ _ _ _ k I Fk) as (s2 & e & Sg & I2 & Le & C2).
    assert (Lk : length E = k). { apply (f_equal (@length label)) in L. rewrite !map_length, seq_length in L. exact L. }
    rewrite Lk in *. exists s2. eexists. exists (E ++ [e]), (accept e Q), (upd ph k (Sending (slot e))). eexists.
    split; [rewrite seq_snoc; eapply greenlets_snoc; [exact R|rewrite G, Fk; reflexivity|exact Sg]|].
    split; [exact I2|]. split; [apply gs_upd; exact G|]. split; [congruence|].
    split; [rewrite seq_snoc, !map_app, L; cbn [map]; rewrite Le; reflexivity|].
    split; [|split].
    + unfold all_sent. rewrite seq_snoc, fold_left_app. cbn [fold_left]. fold (all_sent cmd k q0). rewrite <- M.
      unfold map_queue, accept. cbn [q_script q_target q_accepted q_ready]. rewrite map_app. cbn [map]. rewrite Le. reflexivity.
    + intros h Lh. destruct (Nat.eq_dec h k) as [->|Ne]; [rewrite upd_same; eauto|]. rewrite upd_other by exact Ne. apply P1. lia.
    + intros h Lh. rewrite upd_other by lia. apply P2. lia.
Qed.

Lemma round_two : forall s gs E Q ph ev l q', ginv s E Q ph ev -> (forall h, gs h = green_of h (ph h)) ->
  (forall h, (h < count)%nat -> results_of h s = []) -> (forall h, (h < count)%nat -> exists i, ph h = Sending i) ->
  handed_over tgt (fun _ => True) (map_queue e_label Q) l q' -> length l = count ->
  forall k, (k <= count)%nat -> exists s1 gs1 Q1 ph1 ev1, greenlets linux_sleeps s gs (seq 0 k) s1 gs1 /\ ginv s1 E Q1 ph1 ev1 /\
    (forall h, gs1 h = green_of h (ph1 h)) /\ cb_log s1 = cb_log s /\
    handed_over tgt (fun _ => True) (map_queue e_label Q1) (skipn k l) q' /\
    (forall h, (h < k)%nat -> exists e a, ph1 h = Holding e a /\ nth_error l h = Some (e_label e, a)) /\
    (forall h, (k <= h)%nat -> ph1 h = ph h).
Proof.
  intros s gs E Q ph ev l q' I0 G0 R0 P0 H0 Ll. induction k as [|k IH]; intros Hk.
  - exists s, gs, Q, ph, ev. split; [constructor|]. split; [exact I0|]. split; [exact G0|]. split; [reflexivity|]. split; [exact H0|].
    split; [intros h L; lia|auto].
  - destruct IH as (s1 & gs1 & Q1 & ph1 & ev1 & R & I & G & C & H & P1 & P2); [lia|].
    destruct (P0 k) as [i Pk]; [lia|]. rewrite <- (P2 k (le_n k)) in Pk.
    assert (Rk : results_of k s1 = []). { unfold results_of. rewrite C. apply R0. lia. }
    destruct (look_green _ _ _ _ _ k i (VData (DInt 88)) (RVal (VData (DInt 88))) I Pk eq_refl) as (s2 & p & Q2 & ev2 & Sg & I2 & C2 & Cs).
    rewrite Rk in Cs.
    destruct (skipn k l) as [|[x a] rest] eqn:Sk.
    { apply (f_equal (@length _)) in Sk. rewrite skipn_length in Sk. cbn in Sk. lia. }
    inversion H as [|z1 x1 a1 q1 l1 z2 N _ Rest]; subst.
    rewrite next_map in N. fold (nextE Q1) in N. destruct (nextE Q1) as [[[e a'] Q']|] eqn:En; [|discriminate].
    inversion N; subst x a' q1. destruct Cs as (-> & -> & ->).
    assert (Nk : nth_error l k = Some (e_label e, a)).
    { rewrite <- (firstn_skipn k l), Sk. rewrite nth_error_app2; rewrite firstn_length_le; try lia. rewrite Nat.sub_diag. reflexivity. }
    exists s2. eexists. exists Q', (upd ph1 k (Holding e a)). eexists.
    split; [rewrite seq_snoc; eapply greenlets_snoc; [exact R|rewrite G, Pk; reflexivity|]|].
    { eapply on_step; [reflexivity|reflexivity|]. eapply on_step; [reflexivity|reflexivity|]. exact Sg. }
    split; [exact I2|]. split; [apply gs_upd; exact G|]. split; [congruence|].
    split; [|split].
    + replace (skipn (Datatypes.S k) l) with rest; [exact Rest|]. clear - Sk. revert l Sk. induction k as [|k IH]; intros [|y l] Sk; try discriminate.
      * cbn in *. congruence.
      * cbn in *. apply IH. exact Sk.
    + intros h Lh. destruct (Nat.eq_dec h k) as [->|Ne]; [rewrite upd_same; eauto|]. rewrite upd_other by exact Ne. apply P1. lia.
    + intros h Lh. rewrite upd_other by lia. apply P2. lia.
Qed.

Lemma fetch_nothing : forall X (run : X -> T -> T * answer) script t, fetch run script t [] [] = None.
Proof. induction script as [|[i|i|] rest IH]; intros t; cbn [fetch]; [reflexivity| | |reflexivity]; destruct i; cbn [nth_error]; apply IH. Qed.

Lemma round_three : forall s gs E Q ph ev l, ginv s E Q ph ev -> (forall h, gs h = green_of h (ph h)) ->
  (forall h, (h < count)%nat -> results_of h s = []) -> outstanding Q = [] ->
  (forall h, (h < count)%nat -> exists e a, ph h = Holding e a /\ nth_error l h = Some (e_label e, a)) -> length l = count ->
  NoDup (map (fun p => l_me (fst p)) l) -> (forall h, (h < count)%nat -> exists j a, nth_error l j = Some (nth_label cmd h, a)) ->
  forall k, (k <= count)%nat -> exists s1 gs1 ph1 ev1, greenlets linux_sleeps s gs (seq 0 k) s1 gs1 /\ ginv s1 E Q ph1 ev1 /\
    (forall h, gs1 h = green_of h (ph1 h)) /\ cb_log s1 = cb_log s ++ map report (firstn k l) /\
    (forall h, (h < k)%nat -> exists j a, nth_error l j = Some (nth_label cmd h, a) /\
       ph1 h = Done (if Nat.leb j h then user_sees (linux_expected (cmd h) a) else Threw (EIO 0))) /\
    (forall h, (k <= h)%nat -> ph1 h = ph h).
Proof.
  intros s gs E Q ph ev l I0 G0 R0 O0 P0 Ll ND Pm. induction k as [|k IH]; intros Hk.
  - exists s, gs, ph, ev. split; [constructor|]. split; [exact I0|]. split; [exact G0|]. split; [cbn; rewrite app_nil_r; reflexivity|].
    split; [intros h L; lia|auto].
  - destruct IH as (s1 & gs1 & ph1 & ev1 & R & I & G & C & P1 & P2); [lia|].
    destruct (P0 k) as (e & a & Pk & Nk); [lia|]. rewrite <- (P2 k (le_n k)) in Pk.
    destruct (deliver_green _ _ _ _ _ k e a I Pk) as (s2 & Sg0 & I2 & C2).
    destruct (look_green _ _ _ _ _ k 0 (VData (DBool true)) (RVal (VData (DBool true))) I2 (upd_same _ _ _) eq_refl) as (s3 & p & Q3 & ev3 & Sg & I3 & C3 & Cs).
    assert (Ee : e_label e = Label (l_seq (e_label e)) (me e) (cmd (me e))).
    { destruct (g_held _ _ _ _ _ I k e a Pk) as (Ie & _). apply In_nth_error in Ie as (i & Hi). destruct (g_entries _ _ _ _ _ I i e Hi) as (X & _).
      rewrite X at 1. rewrite X at 1. reflexivity. }
    assert (Fk : firstn (Datatypes.S k) l = firstn k l ++ [(e_label e, a)]).
    { clear - Nk. revert l Nk. induction k as [|k IH]; intros [|y l] Nk; try discriminate; cbn in Nk |- *; [congruence|]. f_equal. apply IH. exact Nk. }
    assert (Cl : cb_log s2 = cb_log s ++ map report (firstn (Datatypes.S k) l)).
    { rewrite C2, C, Fk, map_app, <- app_assoc. cbn [map report fst snd]. do 3 f_equal. unfold report. cbn [fst snd].
      replace (l_cmd (e_label e)) with (cmd (me e)) by (rewrite Ee; reflexivity). reflexivity. }
    destruct (Pm k) as (j & ak & Nj); [lia|].
    assert (Rk : match results_of k s2 with
                 | rp :: _ => (j <= k)%nat /\ rp = linux_expected (cmd k) ak
                 | [] => (k < j)%nat end).
    { assert (Rin : forall rp, In rp (results_of k s2) <-> exists i x ai, (i <= k)%nat /\ nth_error l i = Some (x, ai) /\ l_me x = k /\ rp = linux_expected (l_cmd x) ai).
      { intros rp. unfold results_of. rewrite Cl, filter_app, map_app. fold (results_of k s). rewrite R0 by lia. cbn [app].
        rewrite in_map_iff. split.
        - intros ([x r0] & E1 & F). apply filter_In in F as [F Ek]. cbn [fst snd] in *. subst r0. apply Nat.eqb_eq in Ek. subst x.
          apply in_map_iff in F as ([x ai] & Er & F). apply In_nth_error in F as (i & Ni).
          assert (Li : (i < Datatypes.S k)%nat). { assert (i < length (firstn (Datatypes.S k) l))%nat as Q0 by (apply nth_error_Some; congruence). rewrite firstn_length_le in Q0; lia. }
          exists i, x, ai. split; [lia|]. split.
          + rewrite <- (firstn_skipn (Datatypes.S k) l). rewrite nth_error_app1; [exact Ni|]. rewrite firstn_length_le; lia.
          + unfold report in Er. inversion Er; subst. auto.
        - intros (i & x & ai & Li & Ni & Ex & ->). exists (report (x, ai)). split; [reflexivity|]. apply filter_In. split.
          + apply in_map. assert (X : nth_error (firstn (Datatypes.S k) l) i = Some (x, ai)).
            { rewrite <- (firstn_skipn (Datatypes.S k) l), nth_error_app1 in Ni; [exact Ni|]. rewrite firstn_length_le; lia. }
            eapply nth_error_In; exact X.
          + cbn. apply Nat.eqb_eq. exact Ex. }
      assert (Uni : forall i x ai, nth_error l i = Some (x, ai) -> l_me x = k -> i = j /\ x = nth_label cmd k /\ ai = ak).
      { intros i x ai Ni Ex. assert (i = j).
        { apply (NoDup_nth_error (map (fun p => l_me (fst p)) l)); [exact ND| |].
          - rewrite map_length. apply nth_error_Some. congruence.
          - rewrite !nth_error_map, Ni, Nj. cbn. rewrite Ex. reflexivity. }
        subst i. rewrite Nj in Ni. inversion Ni; subst. auto. }
      destruct (results_of k s2) as [|rp rest] eqn:Er.
      - destruct (Nat.lt_ge_cases k j) as [L|L]; [exact L|exfalso].
        assert (In (linux_expected (cmd k) ak) []) as [] by (apply Rin; exists j, (nth_label cmd k), ak; auto).
      - destruct (proj1 (Rin rp) (or_introl eq_refl)) as (i & x & ai & Li & Ni & Ex & ->). destruct (Uni i x ai Ni Ex) as (-> & -> & ->). auto. }
    assert (Hn : nextE Q = None).
    { unfold nextE, next. unfold outstanding in O0. apply app_eq_nil in O0 as [X Y]. apply map_eq_nil in Y. rewrite X, Y. apply fetch_nothing. }
    rewrite Hn in Cs.
    assert (Fin : p = Done (if Nat.leb j k then user_sees (linux_expected (cmd k) ak) else Threw (EIO 0)) /\ Q3 = Q /\ ev3 = ev1).
    { destruct (results_of k s2) as [|rp rest].
      - replace (Nat.leb j k) with false by (symmetry; apply Nat.leb_gt; exact Rk). exact Cs.
      - destruct Rk as [L ->]. replace (Nat.leb j k) with true by (symmetry; apply Nat.leb_le; exact L). exact Cs. }
    destruct Fin as (-> & -> & ->). set (pk := Done (if Nat.leb j k then user_sees (linux_expected (cmd k) ak) else Threw (EIO 0))) in *.
    exists s3. eexists. exists (upd (upd ph1 k (Sending 0)) k pk), ev1.
    split; [rewrite seq_snoc; eapply greenlets_snoc; [exact R|rewrite G, Pk; reflexivity|exact (Sg0 _ _ Sg)]|].
    split; [exact I3|]. split.
    { intros x. unfold upd. destruct (Nat.eqb_spec x k) as [->|]; [reflexivity|apply G]. }
    split; [congruence|]. split.
    + intros h Lh. destruct (Nat.eq_dec h k) as [->|Ne]; [rewrite upd_same; exists j, ak; auto|]. rewrite !upd_other by exact Ne. apply P1. lia.
    + intros h Lh. rewrite !upd_other by lia. apply P2. lia.
Qed.
End Linux.

(** ** Linux, together *)
Section LinuxAll.
Context {T A : Type} (sense_of : bytes -> result unit) (tgt : target T) (timeout : Z) (count : nat) (cmd : nat -> scsi_command).
Notation ex := (executer sgio (linux_world (queue sg_hdr T * nat))).
Notation os := (linux_os (A := A) sense_of (friendly_sg (queueing tgt)) timeout).
Notation start := (spawned count (fun h => call os h (cmd h))).

Lemma linux_any_schedule : forall (s : ex) script t schedule s' gs',
  intelligible sense_of tgt -> (forall h, (h < count)%nat -> fits (cmd h)) -> unused count script t s -> Z.of_nat count <= max_queue_size s ->
  greenlets linux_sleeps s start schedule s' gs' ->
  exists events q', traffic tgt (quiet script t) events q' /\ senders events = first_turns [] schedule /\ (length schedule <= 3 * count)%nat /\
    forall h, (h < count)%nat ->
      match gs' h with
      | Over o => o = Threw (EIO 0) \/ exists n a, In (Got (Label n h (cmd h)) a) events /\ o = user_sees (linux_expected (cmd h) a)
      | Ready c => exists s2 g, segment linux_sleeps c s' s2 g
      end.
Proof.
  intros s script t schedule s' gs' Hi Hf U Hc R. assert (U' := U). destruct U' as (_ & Hidx & Hm & _ & _).
  assert (Hmax : 1 <= max_queue_size s <= 2 ^ 31) by lia.
  destruct (begin_green (A := A) sense_of tgt timeout (max_queue_size s) (packet_index s) count cmd (quiet script t) s script t U eq_refl eq_refl eq_refl)
    as (I0 & G0 & O0 & D0).
  destruct (run_green sense_of tgt timeout (max_queue_size s) (packet_index s) count cmd (quiet script t) Hmax Hc Hf Hi _ _ _ _ _ R _ _ _ _ I0 G0 O0)
    as (E & Q & ph & ev & I & G & O & M & L).
  cbn [map app] in M.
  exists ev, (map_queue e_label Q). pose proof (g_traffic _ _ _ _ _ _ _ _ _ _ _ _ _ I) as Tr. split; [exact Tr|].
  pose proof (g_senders _ _ _ _ _ _ _ _ _ _ _ _ _ I) as Sn. split; [rewrite Sn; exact M|]. split.
  - pose proof (traffic_count _ count _ _ _ Tr) as X. pose proof (event_count count ev) as Y. pose proof (done_bound count ph) as W.
    pose proof (entries_few _ _ _ _ _ _ _ _ _ _ _ _ _ I) as V. rewrite Sn, map_length in *. unfold quiet, outstanding in X. cbn in X. cbn [length] in L. lia.
  - intros h Hh. rewrite G. destruct (green_of sense_of tgt timeout cmd h (ph h)) as [c|o] eqn:Eg.
    + destruct (turn_green sense_of tgt timeout (max_queue_size s) (packet_index s) count cmd (quiet script t) Hmax Hc Hf Hi _ _ _ _ _ h c I Eg)
        as (s2 & _ & _ & p & _ & Sg & _). eauto.
    + destruct (ph h) as [| | |o'] eqn:Ph; cbn in Eg; try discriminate. inversion Eg; subst o'.
      destruct (g_done _ _ _ _ _ _ _ _ _ _ _ _ _ I h o Ph Hh) as [F|(a & (n & F1) & F2)]; [left; exact F|right; eauto].
Qed.

Lemma handed_perm : forall q l q', handed_over tgt (fun _ => True) q l q' -> Permutation (outstanding q) (map fst l ++ outstanding q').
Proof.
  induction 1 as [q|q x a q1 l q' N Ha _ IH]; [reflexivity|]. cbn [map fst app].
  rewrite (next_perm _ _ _ _ _ _ _ N). constructor. exact IH.
Qed.
Lemma all_sent_out : forall k (q : queue label T), q_ready q = [] -> q_ready (all_sent cmd k q) = [] /\
  outstanding (all_sent cmd k q) = q_accepted q ++ map (nth_label cmd) (seq 0 k).
Proof.
  intros k q Hq. unfold all_sent, outstanding. induction k as [|k [IH1 IH2]].
  - cbn. rewrite Hq. cbn. auto.
  - rewrite seq_snoc, fold_left_app. cbn [fold_left]. set (F := fold_left _ (seq 0 k) q) in *. unfold accept. cbn [q_accepted q_ready]. split; [exact IH1|].
    rewrite IH1 in IH2. cbn [map] in IH2. rewrite app_nil_r in IH2. rewrite IH1. cbn [map]. rewrite IH2, map_app, app_assoc. apply app_nil_r.
Qed.

Lemma linux_rounds : forall (s : ex) script t l q',
  intelligible sense_of tgt -> (forall h, (h < count)%nat -> fits (cmd h)) -> unused count script t s -> Z.of_nat count <= max_queue_size s ->
  handed_over tgt (fun _ => True) (all_sent cmd count (quiet script t)) l q' -> length l = count ->
  exists s' gs', greenlets linux_sleeps s start (rounds count) s' gs' /\
    forall h, (h < count)%nat -> exists j a, nth_error l j = Some (nth_label cmd h, a) /\
      gs' h = Over (if Nat.leb j h then user_sees (linux_expected (cmd h) a) else Threw (EIO 0)).
Proof.
  intros s script t l q' Hi Hf U Hc H Ll. assert (U' := U). destruct U' as (_ & Hidx & Hm & _ & Hlog).
  assert (Hmax : 1 <= max_queue_size s <= 2 ^ 31) by lia.
  destruct (begin_green (A := A) sense_of tgt timeout (max_queue_size s) (packet_index s) count cmd (quiet script t) s script t U eq_refl eq_refl eq_refl)
    as (I0 & G0 & O0 & D0).
  destruct (round_one sense_of tgt timeout (max_queue_size s) (packet_index s) count cmd (quiet script t) Hmax Hc s _ [] I0 eq_refl G0 count (le_n _))
    as (s1 & gs1 & E & Q1 & ph1 & ev1 & R1 & I1 & G1 & C1 & L1 & M1 & P1 & P1').
  assert (Quiet : forall h, (h < count)%nat -> results_of h s = []) by (intros; apply quiet_log; auto).
  assert (Quiet1 : forall h, (h < count)%nat -> results_of h s1 = []) by (intros h Lh; unfold results_of; rewrite C1; apply Quiet; exact Lh).
  assert (H1 := H). rewrite <- M1 in H1.
  destruct (round_two sense_of tgt timeout (max_queue_size s) (packet_index s) count cmd (quiet script t) Hmax Hf Hi s1 gs1 E Q1 ph1 ev1 l q' I1 G1 Quiet1 P1 H1 Ll count (le_n _))
    as (s2 & gs2 & Q2 & ph2 & ev2 & R2 & I2 & G2 & C2 & H2 & P2 & P2').
  assert (Quiet2 : forall h, (h < count)%nat -> results_of h s2 = []) by (intros h Lh; unfold results_of; rewrite C2; apply Quiet1; exact Lh).
  rewrite skipn_all2 in H2 by lia. inversion H2; subst q'.
  pose proof (handed_perm _ _ _ H) as P. destruct (all_sent_out count (quiet script t) eq_refl) as [_ Out]. rewrite Out in P. cbn [quiet q_accepted app] in P.
  assert (O2 : outstanding (map_queue e_label Q2) = []).
  { apply Permutation_length in P. rewrite app_length, !map_length, seq_length in P. apply length_zero_nil. lia. }
  rewrite O2, app_nil_r in P. rewrite outstanding_map in O2. apply map_eq_nil in O2.
  assert (ND : NoDup (map (fun p => l_me (fst p)) l)).
  { rewrite <- (map_map fst l_me). eapply Permutation_NoDup; [apply Permutation_map; exact P|]. rewrite map_map. cbn. rewrite map_id. apply seq_NoDup. }
  assert (Pm : forall h, (h < count)%nat -> exists j a, nth_error l j = Some (nth_label cmd h, a)).
  { intros h Lh. assert (In (nth_label cmd h) (map fst l)) as X by (eapply Permutation_in; [exact P|]; apply in_map; apply in_seq; lia).
    apply in_map_iff in X as ([x a] & Ex & X). cbn in Ex. subst x. apply In_nth_error in X as (j & X). eauto. }
  destruct (round_three sense_of tgt timeout (max_queue_size s) (packet_index s) count cmd (quiet script t) Hmax Hc Hf Hi s2 gs2 E Q2 ph2 ev2 l I2 G2 Quiet2 O2 P2 Ll ND Pm count (le_n _))
    as (s3 & gs3 & ph3 & ev3 & R3 & I3 & G3 & C3 & P3 & P3').
  exists s3, gs3. split.
  - unfold rounds. eapply greenlets_app; [exact R1|]. eapply greenlets_app; [exact R2|exact R3].
  - intros h Lh. destruct (P3 h Lh) as (j & a & N & Ph). exists j, a. split; [exact N|]. rewrite G3, Ph. reflexivity.
Qed.
End LinuxAll.

Lemma greenlets_det : forall S D (sleeps : S -> nat) s gs l s1 gs1, greenlets (D := D) sleeps s gs l s1 gs1 ->
  forall s2 gs2, greenlets sleeps s gs l s2 gs2 -> s1 = s2 /\ gs1 = gs2.
Proof.
  induction 1 as [s gs|s gs h c s1 g1 l s' gs' Hg Sg _ IH]; intros s2 gs2 H2.
  - inversion H2; subst. auto.
  - inversion H2 as [|x1 x2 x3 c' s1' g1' x4 x5 x6 Hg' Sg' R']; subst. rewrite Hg in Hg'. inversion Hg'; subst c'.
    destruct (segment_det _ _ _ _ _ Sg _ _ Sg') as [-> ->]. apply IH. exact R'.
Qed.
