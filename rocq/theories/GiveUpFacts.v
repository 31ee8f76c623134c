(** Lemmas on programs that go on after a read was given up. *)
From Coq Require Import ZArith List Bool Lia Permutation.
From Verif Require Import Base BaseFacts Gen SpecGen GenFacts Executer SpecCall ExecFacts ExecGenFacts ExecStepFacts
  OsCommon OsLinux SpecSg SpecSession LinuxFacts SessionFacts SpecQueue QueueFacts SpecGiveUp.
Import ListNotations.
Open Scope Z_scope.

(** ** A full queue *)
Lemma full_stays : forall R W O (os : os_layer R W O scsi_command) ops s, never_waits ops -> max_queue_size s <= zlen (pending s) ->
  program_runs os s ops s (map (fun _ => Failed EName) ops).
Proof.
  intros R W O os ops s H F. induction ops as [|o ops IH]; [constructor|].
  inversion H as [|o' ops' H1 H2]; subst. specialize (IH H2). destruct o as [me c|me c|]; [| |congruence]; cbn [map].
  - eapply pg_submit_fails; [|exact IH]. apply sync_wait_raise. apply full_send. exact F.
  - eapply pg_call_fails; [|exact IH]. apply sync_wait_raise. apply full_call. exact F.
Qed.

Lemma program_runs_app : forall R W O (os : os_layer R W O scsi_command) s ops s1 l, program_runs os s ops s1 l ->
  forall ops' s2 l', program_runs os s1 ops' s2 l' -> program_runs os s (ops ++ ops') s2 (l ++ l').
Proof.
  induction 1; intros ops' s3 l' R'; cbn [app]; auto;
    first [eapply pg_submit|eapply pg_submit_fails|eapply pg_call|eapply pg_call_fails|eapply pg_wait|eapply pg_wait_fails]; eauto.
Qed.

(** ** Every program has an outcome *)
Section Total.
Context {T : Type} (tgt : target T) (ok : answer -> Prop) (max : Z).
Context (Hok : forall t cdb data, ok (snd (tgt t cdb data))).
Notation good q := (Forall (fun p => ok (snd p)) (q_ready q)).

Lemma fetch_good : forall script t acc ready x a q, Forall (fun p => ok (snd p)) ready ->
  fetch (execute_label tgt) script t acc ready = Some (x, a, q) -> ok a /\ good q.
Proof.
  induction script as [|[i|i|] rest IH]; intros t acc ready x a q F H; cbn [fetch] in H; [discriminate| | |discriminate].
  - destruct (nth_error acc i) as [y|] eqn:E; [|eauto]. destruct (execute_label tgt y t) as [t' b] eqn:Ex. eapply IH; [|exact H].
    rewrite Forall_app. split; [exact F|]. repeat constructor. cbn [snd].
    replace b with (snd (execute_label tgt y t)) by (rewrite Ex; reflexivity). apply Hok.
  - destruct (nth_error ready i) as [[y b]|] eqn:E; [|eauto]. inversion H; subst. cbn [q_ready].
    rewrite (without_perm _ _ _ _ E) in F. inversion F; subst. auto.
Qed.
Lemma passed_good : forall script t acc ready, Forall (fun p => ok (snd p)) ready -> good (passed (execute_label tgt) script t acc ready).
Proof.
  induction script as [|[i|i|] rest IH]; intros t acc ready F; cbn [passed]; auto.
  destruct (nth_error acc i) as [y|] eqn:E; auto. destruct (execute_label tgt y t) as [t' b] eqn:Ex. apply IH.
  rewrite Forall_app. split; [exact F|]. repeat constructor. cbn [snd].
  replace b with (snd (execute_label tgt y t)) by (rewrite Ex; reflexivity). apply Hok.
Qed.

Lemma wait_total : forall k q, length (outstanding q) = k -> good q ->
  exists l q', handed_over tgt ok q l q' /\ good q' /\ (outstanding q' = [] \/ outstanding q' <> [] /\ next (execute_label tgt) q' = None).
Proof.
  induction k as [|k IH]; intros q E G.
  - exists [], q. split; [constructor|]. split; [exact G|]. left. apply length_zero_nil. exact E.
  - destruct (next (execute_label tgt) q) as [[[x a] q1]|] eqn:N.
    + destruct (fetch_good _ _ _ _ _ _ _ G N) as [Ha G1]. pose proof (Permutation_length (next_perm _ _ _ _ _ _ _ N)) as P. cbn [length] in P.
      destruct (IH q1) as (l & q' & H & G' & R); [lia|exact G1|]. exists ((x, a) :: l), q'. split; [eapply ho_next; eauto|auto].
    + exists [], q. split; [constructor|]. split; [exact G|]. right. split; [|exact N]. intro F. rewrite F in E. discriminate.
Qed.

Lemma label_dec : forall x y : label, {x = y} + {x <> y}.
Proof.
  assert (B : forall x y : bytes, {x = y} + {x <> y}) by (apply list_eq_dec; apply Z.eq_dec).
  assert (C : forall x y : scsi_command, {x = y} + {x <> y}) by (repeat decide equality).
  intros [a b c] [a' b' c']. destruct (Z.eq_dec a a') as [->|N]; [|right; congruence].
  destruct (Nat.eq_dec b b') as [->|N]; [|right; congruence]. destruct (C c c') as [->|N]; [left; reflexivity|right; congruence].
Qed.

Lemma call_total : forall mine k q, length (outstanding q) = k -> good q -> In mine (outstanding q) ->
  (exists others a q', handed_over tgt ok q (others ++ [(mine, a)]) q' /\ good q') \/
  (exists others q', handed_over tgt ok q others q' /\ ~ In mine (map fst others) /\ good q' /\ next (execute_label tgt) q' = None).
Proof.
  intros mine. induction k as [|k IH]; intros q E G I.
  - apply length_zero_nil in E. rewrite E in I. destruct I.
  - destruct (next (execute_label tgt) q) as [[[x a] q1]|] eqn:N.
    + destruct (fetch_good _ _ _ _ _ _ _ G N) as [Ha G1]. pose proof (next_perm _ _ _ _ _ _ _ N) as P.
      destruct (label_dec x mine) as [->|Nx].
      * left. exists [], a, q1. split; [|exact G1]. cbn [app]. eapply ho_next; eauto. constructor.
      * pose proof (Permutation_length P) as PL. cbn [length] in PL.
        assert (I1 : In mine (outstanding q1)) by (destruct (Permutation_in _ P I); [congruence|auto]).
        destruct (IH q1) as [(o & a' & q' & H & G')|(o & q' & H & H1 & H2 & H3)]; [lia|exact G1|exact I1| |].
        -- left. exists ((x, a) :: o), a', q'. split; [|exact G']. cbn [app]. eapply ho_next; eauto.
        -- right. exists ((x, a) :: o), q'. split; [eapply ho_next; eauto|]. split; [|auto]. cbn [map fst In]. intros [F|F]; auto.
    + right. exists [], q. split; [constructor|]. split; [auto|]. auto.
Qed.

Lemma handed_seqs : forall n q l q', handed_over tgt ok q l q' -> Forall (fun x => n <= l_seq x) (outstanding q) ->
  Forall (fun x => n <= l_seq x) (outstanding q').
Proof.
  induction 1 as [q|q x a q1 l q' N Ha _ IH]; intros F; auto. apply IH. rewrite (next_perm _ _ _ _ _ _ _ N) in F. inversion F; auto.
Qed.

Theorem program_total : forall ops n q, good q -> Forall fits (commands ops) -> 0 <= n -> n + zlen (callbacks ops) <= max ->
  Forall (fun x => 0 <= l_seq x) (outstanding q) ->
  exists n' q' log l, queue_program tgt ok max n q ops n' q' log l.
Proof.
  induction ops as [|o ops IH]; intros n q G F Hn Hz S; [do 4 eexists; constructor|].
  assert (A : forall me c, good (accept (Label n me c) q) /\ Forall (fun x => 0 <= l_seq x) (outstanding (accept (Label n me c) q))).
  { intros me c. split; [exact G|]. unfold outstanding, accept. cbn [q_accepted q_ready]. unfold outstanding in S. rewrite !Forall_app in *.
    destruct S as [S1 S2]. split; [split; [exact S1|]|exact S2]. repeat constructor. cbn. exact Hn. }
  assert (In_time : 1 + n <= max -> in_time max n q) by (intros X; eapply Forall_impl; [|exact S]; cbn; intros x Hx; lia).
  assert (After : forall q1, good q1 -> Forall (fun x => 0 <= l_seq x) (outstanding q1) ->
     good (after_silence (execute_label tgt) q1) /\ Forall (fun x => 0 <= l_seq x) (outstanding (after_silence (execute_label tgt) q1))).
  { intros q1 G1 S1. split; [apply passed_good; exact G1|]. rewrite <- silence_perm. exact S1. }
  destruct o as [me c|me c|]; cbn [commands callbacks flat_map app] in F, Hz; fold (commands ops) in F; fold (callbacks ops) in Hz.
  - unfold zlen in Hz. cbn [length] in Hz. destruct (A me c) as [A1 A2]. pose proof (Forall_inv F) as F1. pose proof (Forall_inv_tail F) as F2.
    destruct (Z_lt_le_dec (zlen (outstanding q)) max) as [L|L].
    + destruct (IH (n + 1) (accept (Label n me c) q)) as (n' & q' & log & l & P); auto; [lia|unfold zlen; lia|].
      do 4 eexists. apply qp_submit; eauto. apply In_time. lia.
    + destruct (IH n q) as (n' & q' & log & l & P); auto; [unfold zlen; lia|]. do 4 eexists. apply qp_submit_full; eauto.
  - unfold zlen in Hz. cbn [length] in Hz. destruct (A me c) as [A1 A2]. pose proof (Forall_inv F) as F1. pose proof (Forall_inv_tail F) as F2.
    destruct (Z_lt_le_dec (zlen (outstanding q)) max) as [L|L].
    + destruct (call_total (Label n me c) _ (accept (Label n me c) q) eq_refl A1) as [(o & a & q1 & H & G1)|(o & q1 & H & H1 & G1 & H3)].
      * unfold outstanding, accept. cbn [q_accepted q_ready]. rewrite !in_app_iff. cbn [In]. auto.
      * destruct (IH (n + 1) q1) as (n' & q' & log & l & P); auto; [lia|unfold zlen; lia|eapply handed_seqs; eauto|].
        do 4 eexists. eapply qp_call; eauto. apply In_time. lia.
      * destruct (After q1 G1) as [B1 B2]; [eapply handed_seqs; eauto|].
        destruct (IH (n + 1) (after_silence (execute_label tgt) q1)) as (n' & q' & log & l & P); auto; [lia|unfold zlen; lia|].
        do 4 eexists. eapply qp_call_given_up; eauto. apply In_time. lia.
    + destruct (IH n q) as (n' & q' & log & l & P); auto; [unfold zlen; lia|]. do 4 eexists. apply qp_call_full; eauto.
  - destruct (wait_total _ q eq_refl G) as (all & q1 & H & G1 & [O|[O N]]).
    + destruct (IH n q1) as (n' & q' & log & l & P); auto; [eapply handed_seqs; eauto|]. do 4 eexists. eapply qp_wait; eauto.
    + destruct (After q1 G1) as [B1 B2]; [eapply handed_seqs; eauto|].
      destruct (IH n (after_silence (execute_label tgt) q1)) as (n' & q' & log & l & P); auto. do 4 eexists. eapply qp_wait_given_up; eauto.
Qed.

(** ** Nothing is answered *)
Lemma silent_program : forall cmds n acc t rest, Forall fits (map snd cmds) -> zlen acc = n -> n <= max -> Forall (fun x => 0 <= l_seq x) acc ->
  forall ops n' q' log l,
  let some := firstn (Z.to_nat (max - n)) cmds in
  queue_program tgt ok max (n + zlen some) (Queue rest t (acc ++ numbered n some) []) ops n' q' log l ->
  queue_program tgt ok max n (Queue (map (fun _ => Silence) some ++ rest) t acc []) (calls cmds ++ ops) n' q' log
    (unanswered (Z.to_nat (max - n)) cmds ++ l).
Proof.
  induction cmds as [|[me c] cmds IH]; intros n acc t rest F E Hn Ha ops n' q' log l some P; subst some.
  - unfold unanswered. rewrite firstn_nil, skipn_nil in *. cbn [numbered] in P. rewrite app_nil_r, Z.add_0_r in P. exact P.
  - cbn [map snd] in F. pose proof (Forall_inv F) as F1. pose proof (Forall_inv_tail F) as F2.
    destruct (Z.eq_dec n max) as [M|M].
    + unfold unanswered. replace (Z.to_nat (max - n)) with 0%nat in * by lia. cbn [firstn map app numbered skipn calls fst snd] in *.
      rewrite app_nil_r, Z.add_0_r in P. apply qp_call_full.
      * unfold outstanding. cbn [q_accepted q_ready map]. rewrite app_nil_r. lia.
      * specialize (IH n acc t rest F2 E Hn Ha ops n' q' log l). replace (Z.to_nat (max - n)) with 0%nat in IH by lia.
        unfold unanswered in IH. cbn [firstn map app skipn numbered] in IH. rewrite app_nil_r, Z.add_0_r in IH. apply IH. exact P.
    + destruct (Z.to_nat (max - n)) as [|k] eqn:K; [lia|]. unfold unanswered. cbn [firstn map app numbered skipn calls fst snd] in *.
      specialize (IH (n + 1) (acc ++ [Label n me c]) t rest F2). replace (Z.to_nat (max - (n + 1))) with k in IH by lia.
      change log with (map report [] ++ log).
      apply (qp_call_given_up _ _ _ n _ me c [] (accept (Label n me c) (Queue (Silence :: map (fun _ => Silence) (firstn k cmds) ++ rest) t acc []))).
      * exact F1.
      * unfold outstanding. cbn [q_accepted q_ready map]. rewrite app_nil_r. lia.
      * unfold in_time, outstanding. cbn [q_accepted q_ready map]. rewrite app_nil_r. eapply Forall_impl; [|exact Ha]. cbn. intros x Hx. lia.
      * constructor.
      * intros [].
      * reflexivity.
      * unfold accept, after_silence. cbn [passed q_script q_target q_accepted q_ready]. apply IH.
        -- unfold zlen in *. rewrite app_length. cbn [length]. lia.
        -- lia.
        -- rewrite Forall_app. split; [exact Ha|]. repeat constructor. cbn. unfold zlen in E. lia.
        -- rewrite <- app_assoc. cbn [app]. unfold zlen in P |- *. cbn [length] in P.
           replace (n + 1 + Z.of_nat (length (firstn k cmds))) with (n + Z.of_nat (Datatypes.S (length (firstn k cmds)))) by lia. exact P.
Qed.
End Total.

(** ** A late answer *)
Lemma set_nth_same : forall h a b, nth_error h a = Some b -> set_nth h a b = h.
Proof. induction h as [|x h IH]; intros [|a] b H; cbn in *; try discriminate; [congruence|]. f_equal. auto. Qed.
Lemma poke_nothing : forall p n h, poke p n [] h = h.
Proof.
  intros [a|] n h; cbn [poke]; auto. destruct (nth_error h a) as [b|] eqn:E; auto.
  unfold overwrite. rewrite firstn_nil. cbn [length skipn app]. rewrite firstn_all. apply set_nth_same. exact E.
Qed.

Section Late.
Context {T A : Type} (sense_of : bytes -> result unit) (tgt : target T) (timeout max b : Z).
Notation ex := (executer sgio (linux_world (queue sg_hdr T))).
Notation os := (linux_os (A := A) sense_of (patient tgt) timeout).
Notation ok := (fun a => is_check_condition (a_status a) (a_driver a) = true -> sense_of (pad 255 (a_sense a)) = Ok tt).
Context (Hmax : 1 <= max <= 2 ^ 31).

Lemma late_answer : forall (s : ex) n Q me c old a q1, linked timeout max b s n Q -> fits c ->
  zlen (outstanding (map_queue e_label Q)) < max ->
  l_seq old = n - max -> In old (outstanding (map_queue e_label Q)) ->
  next (execute_label tgt) (accept (Label n me c) (map_queue e_label Q)) = Some (old, a, q1) -> ok a ->
  ~ In me (map fst (cb_log s)) ->
  exists s', cb_log s' = cb_log s ++ [(me, linux_expected c (without_data a))] /\
    sync_wait_ends (call os me c) s s' (user_sees (linux_expected c (without_data a))).
Proof.
  intros s n Q me c old a q1 L Hf Hroom Hold Hin N Ha Hlog.
  rewrite outstanding_map in Hroom. unfold zlen in Hroom. rewrite map_length in Hroom.
  assert (Hroom' : zlen (pending s) < max_queue_size s).
  { unfold zlen. rewrite (lk_count _ _ _ _ _ _ L), (lk_max _ _ _ _ _ _ L). exact Hroom. }
  set (idx := packet_index s). set (h := l_heap (world s)).
  destruct (sgio_create idx c timeout h) as [h1 r] eqn:Hcr.
  set (e := Entry (Label n me c) r h h1).
  destruct (created_pointers timeout _ _ _ _ _ Hcr) as ((new & En) & _ & _ & _ & Hdb).
  set (w1 := LinuxWorld h1 (l_dev (world s)) (l_buffer (world s))).
  set (w2 := LinuxWorld h1 (map_queue block (accept e Q)) (l_buffer (world s))).
  set (s0 := with_world (at_send s r (Some me)) w2).
  assert (Hlab : map_queue e_label (accept e Q) = accept (Label n me c) (map_queue e_label Q)).
  { unfold map_queue, accept. cbn [q_script q_target q_accepted q_ready]. rewrite map_app. reflexivity. }
  assert (Hsend : forall pp, evaluates (send os c (Some me)) (Send VNone) pp s s0 (CallReturns (VData (DInt 88)) true)).
  { assert (Hb : send_begin os c (Some me) s = (with_world (at_send s r (Some me)) w1, Ok (idx, r))).
    { apply begin_ok; [exact Hroom'|]. cbn [os_prepare_to_send linux_os]. unfold linux_prepare, at_prepare. cbn [world with_index].
      fold h idx. rewrite Hcr. reflexivity. }
    intros pp. eapply (send_succeeds os c (Some me) s _ _ idx r VNone _ _ pp Hb).
    eapply ev_value.
    + cbn [os_send linux_os linux_send resume world with_world l_heap l_dev l_buffer sg_write patient w1].
      unfold queueing_write. rewrite (lk_dev _ _ _ _ _ _ L). reflexivity.
    + apply vdata_not_exn.
    + replace (with_world _ (LinuxWorld h1 (accept (hdr r) (map_queue block Q)) (l_buffer (world s)))) with s0.
      * apply ev_finish; [reflexivity|apply vdata_not_exn].
      * unfold s0, w2, map_queue, accept. cbn [q_script q_target q_accepted q_ready]. rewrite map_app. reflexivity. }
  rewrite <- Hlab, next_map in N.
  destruct (next (fun e => execute_label tgt (e_label e)) (accept e Q)) as [[[o a'] Q1]|] eqn:E; [|discriminate].
  inversion N as [[N1 N2 N3]]. subst a'. clear N.
  pose proof (next_perm _ _ _ _ _ _ _ E) as P.
  assert (Io : In o (outstanding Q)).
  { assert (I1 : In o (outstanding (accept e Q))) by (eapply Permutation_in; [symmetry; exact P|left; reflexivity]).
    unfold outstanding, accept in I1. cbn [q_accepted q_ready] in I1. rewrite <- app_assoc, in_app_iff in I1. cbn [app In] in I1.
    unfold outstanding. rewrite in_app_iff. destruct I1 as [I1|[I1|I1]]; auto.
    subst o. cbn [e_label e] in N1. rewrite <- N1 in Hold. cbn [l_seq] in Hold. lia. }
  destruct (lk_ok _ _ _ _ _ _ L o Io) as (Hc & Hfo & Hr). fold h in Hr.
  assert (Hslot : slot_of max b (e_label o) = idx).
  { unfold idx. rewrite (lk_index _ _ _ _ _ _ L). unfold slot_of. rewrite N1, Hold.
    replace (b + (n - max)) with (b + n + (-1) * max) by lia. apply Z_mod_plus_full. }
  assert (Hread : sg_read (patient tgt) h1 (l_dev (world s0)) = (completed_mem (block o) a h1, map_queue block Q1, Ok (Some (completed_hdr (block o) a)))).
  { cbn [sg_read patient]. unfold patient_read. change (l_dev (world s0)) with (map_queue block (accept e Q)). rewrite next_map.
    replace (next _ (accept e Q)) with (Some (o, a, Q1)); [reflexivity|]. rewrite <- E. unfold next. apply fetch_same.
    intros y Hy t.
    assert (D : described_cdb (block y) h1 = command_of (l_cmd (e_label y)) /\ described_data (block y) h1 = data_out (l_cmd (e_label y))).
    { cbn [accept q_accepted] in Hy. rewrite in_app_iff in Hy. destruct Hy as [Hy|[<-|[]]].
      - destruct (lk_ok _ _ _ _ _ _ L y) as (Y1 & Y2 & Y3 & Y4); [unfold outstanding; apply in_or_app; auto|]. fold h in Y3, Y4.
        unfold block. eapply (region_described timeout); [exact Y1| |exact Y2]. split; [rewrite En, app_length; lia|].
        intros p Hp. rewrite En, nth_error_app1 by lia. apply Y4. exact Hp.
      - unfold block, e. cbn [e_req e_label l_cmd]. eapply (region_described timeout); [exact Hcr| |exact Hf]. split; [lia|auto]. }
    destruct D as [D1 D2]. unfold execute_label. rewrite D1, D2. reflexivity. }
  set (s1 := with_world s0 (LinuxWorld (completed_mem (block o) a h1) (map_queue block Q1) (l_buffer (world s)))).
  assert (Hpid : pack_id (block o) = idx).
  { pose proof (created_sense timeout _ _ _ _ _ Hc) as (_ & _ & _ & Hp). unfold block. rewrite Hp, c_int_small; [exact Hslot|].
    pose proof (slot_range max b Hmax (e_label o)). lia. }
  assert (Hg : dict_get idx (pending s1) = Some (r, Some me)) by apply dict_get_set_eq.
  destruct (created_pointers timeout _ _ _ _ _ Hc) as (_ & (ps & Hps & Bps) & _).
  assert (Hlen : (length (e_h1 o) <= length h)%nat) by apply Hr.
  assert (Hh : linux_handle sense_of (Some (completed_hdr (block o) a)) s1 = Ok (linux_expected c (without_data a), idx)).
  { destruct (created_bounds timeout _ _ _ _ _ Hcr) as [_ Hb2].
    rewrite (linux_handle_spec sense_of s1 _ r (Some me) (pad 255 (a_sense a))).
    - cbn [status host_status driver_status completed_hdr pack_id]. rewrite Hpid.
      change (l_heap (world s1)) with (completed_mem (block o) a h1).
      replace (match data_buffer r with Some p => nth_error (completed_mem (block o) a h1) p | None => None end)
        with (match data_buffer r with Some p => nth_error (completed_mem (hdr r) (Answer 0 0 0 [] []) h1) p | None => None end).
      + rewrite (created_data_read timeout _ _ _ _ _ (Answer 0 0 0 [] []) Hcr Hf). reflexivity.
      + destruct (data_buffer r) as [p|]; auto. unfold block. rewrite (outside_untouched timeout _ _ _ _ _ a h1 p Hc).
        * unfold completed_mem. cbn [a_data a_sense]. rewrite !poke_nothing. destruct (_ =? -3); reflexivity.
        * right. specialize (Hdb p eq_refl). lia.
    - cbn [pack_id completed_hdr]. rewrite Hpid. exact Hg.
    - cbn [status driver_status completed_hdr sbp]. intros Hcc. split; auto.
      change (l_heap (world s1)) with (completed_mem (block o) a h1).
      rewrite <- (created_sense_read timeout _ _ _ _ _ a Hc). unfold string_at, block. rewrite Hps.
      fold (block o). replace (nth_error (completed_mem (block o) a h1) ps) with (nth_error (completed_mem (block o) a (e_h1 o)) ps); [reflexivity|].
      apply nth_completed. rewrite En, nth_error_app1 by lia. symmetry. apply Hr. exact Bps.
    - intros p Hp. change (l_heap (world s1)) with (completed_mem (block o) a h1). rewrite mem_length.
      specialize (Hdb p Hp). lia.
    - exact Hb2. }
  set (s2 := with_log (with_pending s1 (dict_del idx (pending s1))) (cb_log s1 ++ [(me, linux_expected c (without_data a))])).
  assert (Hpen : pending s0 <> []) by (intro F; change (pending s1) with (pending s0) in Hg; rewrite F in Hg; discriminate).
  exists s2. split; [reflexivity|]. apply sync_user_sees.
  eapply ev_call; [reflexivity|apply Hsend|].
  eapply ev_call; [rewrite call_loop_unfold; cbn [resume]; rewrite (quiet_log me s0 Hlog); reflexivity| |].
  - eapply process_succeeds; [exact Hpen| |].
    + exact (linux_receive_evaluates sense_of (patient tgt) timeout s0 _ _ _ _ _ false Hread Hh).
    + apply (complete_some _ _ s1 r me). exact Hg.
  - eapply call_loop_end; [|apply vdata_not_exn].
    rewrite (results_of_app me s0 (cb_log s0) eq_refl me (linux_expected c (without_data a))) by reflexivity.
    rewrite (quiet_log me s0 Hlog), Nat.eqb_refl. reflexivity.
Qed.
End Late.

Section Programs.
Context {T A : Type} (sense_of : bytes -> result unit) (tgt : target T) (timeout : Z).
Notation ok := (fun a => is_check_condition (a_status a) (a_driver a) = true -> sense_of (pad 255 (a_sense a)) = Ok tt).
Notation os := (linux_os (A := A) sense_of (patient tgt) timeout).

Lemma always_ends : forall s script t ops, queue_idle s script t ->
  (forall t cdb data, ok (snd (tgt t cdb data))) -> Forall fits (commands ops) -> zlen (callbacks ops) <= max_queue_size s ->
  NoDup (callbacks ops) -> (forall me, In me (callbacks ops) -> ~ In me (map fst (cb_log s))) ->
  exists n' q' log l s', queue_program tgt ok (max_queue_size s) 0 (Queue script t [] []) ops n' q' log l /\
    program_runs os s ops s' l /\ cb_log s' = cb_log s ++ log.
Proof.
  intros s script t ops Hi Hok Hf Hz ND Hl.
  destruct (program_total tgt ok (max_queue_size s) Hok ops 0 (Queue script t [] [])) as (n' & q' & log & l & P); auto; try constructor; [lia|].
  destruct (queue_programs (A := A) sense_of tgt timeout s script t ops n' q' log l Hi P ND Hl) as (s' & R & C & _).
  exists n', q', log, l, s'. auto.
Qed.

Lemma calls_callbacks : forall cmds, callbacks (calls cmds) = map fst cmds.
Proof. induction cmds as [|[me c] cmds IH]; cbn; auto. f_equal. exact IH. Qed.
Lemma callbacks_app : forall l l', callbacks (l ++ l') = callbacks l ++ callbacks l'.
Proof. intros. apply flat_map_app. Qed.

Lemma silent_calls : forall s cmds t rest,
  let some := firstn (Z.to_nat (max_queue_size s)) cmds in
  queue_idle s (map (fun _ => Silence) some ++ rest) t -> Forall fits (map snd cmds) ->
  NoDup (map fst cmds) -> (forall me, In me (map fst cmds) -> ~ In me (map fst (cb_log s))) ->
  exists s', program_runs os s (calls cmds) s' (unanswered (Z.to_nat (max_queue_size s)) cmds) /\ cb_log s' = cb_log s /\
    zlen (pending s') = zlen some.
Proof.
  intros s cmds t rest some Hi Hf ND Hl. destruct Hi as (Hi1 & Hi2 & Hi3 & Hi4).
  pose proof (silent_program tgt ok (max_queue_size s) cmds 0 [] t rest Hf eq_refl) as X.
  rewrite Z.sub_0_r in X. fold some in X. cbv zeta in X.
  specialize (X ltac:(lia) ltac:(constructor) [] _ _ _ _ (qp_nil _ _ _ _ _)). rewrite !app_nil_r in X.
  destruct (queue_programs (A := A) sense_of tgt timeout s _ t _ _ _ _ _ (conj Hi1 (conj Hi2 (conj Hi3 Hi4))) X) as (s' & R & C & Z & _).
  - rewrite calls_callbacks. exact ND.
  - rewrite calls_callbacks. exact Hl.
  - exists s'. rewrite app_nil_r in C. split; [exact R|]. split; [exact C|]. rewrite Z. unfold outstanding. cbn [q_accepted q_ready map app].
    rewrite app_nil_r. clear. generalize 0. unfold zlen. induction some as [|[me c] l IH]; intros n; cbn [numbered length]; auto.
    specialize (IH (n + 1)). lia.
Qed.

Lemma waits_again : forall s cmds t rest all q1,
  let some := firstn (Z.to_nat (max_queue_size s)) cmds in
  queue_idle s (map (fun _ => Silence) some ++ rest) t -> Forall fits (map snd cmds) ->
  NoDup (map fst cmds) -> (forall me, In me (map fst cmds) -> ~ In me (map fst (cb_log s))) ->
  handed_over tgt ok (Queue rest t (numbered 0 some) []) all q1 -> outstanding q1 = [] ->
  exists s', program_runs os s (calls cmds ++ [WaitAll]) s' (unanswered (Z.to_nat (max_queue_size s)) cmds ++ [Went]) /\
    cb_log s' = cb_log s ++ map report all /\ queue_idle s' (q_script q1) (q_target q1).
Proof.
  intros s cmds t rest all q1 some Hi Hf ND Hl Ho He. destruct Hi as (Hi1 & Hi2 & Hi3 & Hi4).
  pose proof (silent_program tgt ok (max_queue_size s) cmds 0 [] t rest Hf eq_refl) as X.
  rewrite Z.sub_0_r in X. fold some in X. cbv zeta in X.
  specialize (X ltac:(lia) ltac:(constructor) [WaitAll] (0 + zlen some) q1 (map report all ++ []) [Went]).
  destruct (queue_programs (A := A) sense_of tgt timeout s _ t _ _ _ _ _ (conj Hi1 (conj Hi2 (conj Hi3 Hi4)))
    (X (qp_wait _ _ _ _ _ _ _ _ _ _ _ _ Ho He (qp_nil _ _ _ _ _)))) as (s' & R & C & _ & I).
  - rewrite callbacks_app, calls_callbacks, app_nil_r. exact ND.
  - rewrite callbacks_app, calls_callbacks, app_nil_r. exact Hl.
  - exists s'. rewrite app_nil_r in C. auto.
Qed.

Lemma sent_callbacks : forall ops l m, In m (sent ops l) -> In m (callbacks ops).
Proof.
  induction ops as [|o ops IH]; intros l m H; [destruct l; exact H|].
  assert (X : In m (callbacks ops) -> In m (callbacks (o :: ops))) by (intros Y; cbn [callbacks flat_map]; rewrite in_app_iff; auto).
  destruct o as [k c|k c|], l as [|[|r|e] l]; cbn [sent] in H; try (destruct H; fail); try (apply X; eapply IH; exact H).
  - destruct H as [->|H]; [left; reflexivity|apply X; eapply IH; exact H].
  - destruct H as [->|H]; [left; reflexivity|apply X; eapply IH; exact H].
  - destruct e; try (apply X; eapply IH; exact H). destruct H as [->|H]; [left; reflexivity|apply X; eapply IH; exact H].
Qed.

Lemma late_program : forall s script t ops n q log l me c old a q1, queue_idle s script t ->
  queue_program tgt ok (max_queue_size s) 0 (Queue script t [] []) ops n q log l ->
  NoDup (callbacks ops ++ [me]) -> (forall m, In m (callbacks ops ++ [me]) -> ~ In m (map fst (cb_log s))) ->
  fits c -> zlen (outstanding q) < max_queue_size s -> In old (outstanding q) -> l_seq old = n - max_queue_size s ->
  next (execute_label tgt) (accept (Label n me c) q) = Some (old, a, q1) -> ok a ->
  exists s', program_runs os s (ops ++ [Call me c]) s' (l ++ [Answered (linux_expected c (without_data a))]) /\
    cb_log s' = cb_log s ++ log ++ [(me, linux_expected c (without_data a))].
Proof.
  intros s script t ops n q log l me c old a q1 Hi P ND Hl Hf Hz Ho Hs N Ha.
  pose proof (idle_linked timeout _ _ _ Hi) as L. destruct Hi as (_ & H2 & _).
  pose proof (exactly_once sense_of tgt _ _ _ _ _ _ _ _ P) as X. cbn [outstanding q_accepted q_ready map app] in X.
  destruct (program (A := A) sense_of tgt timeout (max_queue_size s) (packet_index s) H2 _ _ _ _ _ _ _ P s _ L eq_refl)
    as (Q' & s1 & L1 & E1 & C1 & R1).
  - cbn. apply NoDup_app_remove_r in ND. exact ND.
  - intros m Hm. apply Hl. rewrite in_app_iff. auto.
  - rewrite <- E1 in Hz, Ho, N.
    destruct (late_answer (A := A) sense_of tgt timeout (max_queue_size s) (packet_index s) H2 s1 n Q' me c old a q1 L1 Hf Hz Hs Ho N Ha) as (s2 & C2 & V2).
    + rewrite C1, map_app, in_app_iff. intros [F|F].
      * revert F. apply Hl. rewrite in_app_iff. cbn. auto.
      * assert (Y : In me (sent ops l)) by (eapply Permutation_in; [symmetry; exact X|]; rewrite in_app_iff; auto).
        apply NoDup_remove_2 in ND. rewrite app_nil_r in ND. apply ND.
        eapply sent_callbacks. exact Y.
    + exists s2. split; [|rewrite C2, C1, <- app_assoc; reflexivity].
      eapply program_runs_app; [exact R1|]. eapply pg_call; [exact V2|constructor].
Qed.
End Programs.

(** ** What the device executes *)
Section Executed.
Context {T : Type} (tgt : target T).
Notation rec := (recording tgt).
Notation state := (T * list (bytes * bytes))%type.
Notation ex_label := (execute_label rec).
Notation told q := (map (fun x => as_sent (l_cmd x)) (q_accepted q)).

Definition goes (q q' : queue label state) (new : list (bytes * bytes)) : Prop :=
  exists more, snd (q_target q') = snd (q_target q) ++ more /\
    fst (q_target q') = executed_all tgt more (fst (q_target q)) /\
    Permutation (told q ++ new) (more ++ told q').

Lemma goes_refl : forall q, goes q q [].
Proof. intros q. exists []. rewrite !app_nil_r. auto. Qed.
Lemma goes_trans : forall q q1 q2 new new', goes q q1 new -> goes q1 q2 new' -> goes q q2 (new ++ new').
Proof.
  intros q q1 q2 new new' (m & A1 & A2 & A3) (m' & B1 & B2 & B3). exists (m ++ m').
  rewrite B1, A1, app_assoc. split; [reflexivity|]. rewrite B2, A2. unfold executed_all. rewrite fold_left_app. split; [reflexivity|].
  rewrite app_assoc, A3, <- !app_assoc, B3. reflexivity.
Qed.
Lemma goes_accept : forall q x, goes q (accept x q) [as_sent (l_cmd x)].
Proof.
  intros q x. exists []. rewrite app_nil_r. split; [reflexivity|]. split; [reflexivity|]. cbn [accept q_accepted app]. rewrite map_app. reflexivity.
Qed.
Lemma goes_run : forall script t acc ready rest i x t' a, nth_error acc i = Some x -> ex_label x t = (t', a) ->
  goes (Queue script t acc ready) (Queue rest t' (without i acc) (ready ++ [(x, a)])) [].
Proof.
  intros script t acc ready rest i x t' a E H. exists [as_sent (l_cmd x)]. unfold execute_label, recording in H.
  cbn [q_target q_accepted]. destruct (tgt (fst t) _ _) as [u b] eqn:F. inversion H; subst. cbn [snd fst].
  split; [reflexivity|]. split; [unfold executed_all, as_sent; cbn [fold_left fst snd]; rewrite F; reflexivity|].
  rewrite app_nil_r. cbn [app]. rewrite (Permutation_map _ (without_perm _ _ _ _ E)). reflexivity.
Qed.
Lemma goes_script : forall script rest t acc ready ready' q new, goes (Queue rest t acc ready') q new -> goes (Queue script t acc ready) q new.
Proof. intros script rest t acc ready ready' q new (m & A). exists m. exact A. Qed.
Lemma fetch_goes : forall script t acc ready x a q, fetch ex_label script t acc ready = Some (x, a, q) -> goes (Queue script t acc ready) q [].
Proof.
  induction script as [|[i|i|] rest IH]; intros t acc ready x a q H; cbn [fetch] in H; [discriminate| | |discriminate].
  - destruct (nth_error acc i) as [y|] eqn:E; [|eapply goes_script, IH; exact H]. destruct (ex_label y t) as [t' b] eqn:F.
    change (@nil (bytes * bytes)) with ([] ++ @nil (bytes * bytes)). eapply goes_trans; [eapply goes_run; eauto|]. apply (IH _ _ _ _ _ _ H).
  - destruct (nth_error ready i) as [[y b]|]; [|eapply goes_script, IH; exact H]. inversion H; subst.
    eapply goes_script. apply goes_refl.
Qed.
Lemma passed_goes : forall script t acc ready, goes (Queue script t acc ready) (passed ex_label script t acc ready) [].
Proof.
  induction script as [|[i|i|] rest IH]; intros t acc ready; cbn [passed].
  - apply goes_refl.
  - destruct (nth_error acc i) as [y|] eqn:E; [|eapply goes_script, IH]. destruct (ex_label y t) as [t' b] eqn:F.
    change (@nil (bytes * bytes)) with ([] ++ @nil (bytes * bytes)). eapply goes_trans; [eapply goes_run; eauto|]. apply IH.
  - eapply goes_script, IH.
  - eapply goes_script. apply goes_refl.
Qed.
Lemma handed_goes : forall ok q l q', handed_over rec ok q l q' -> goes q q' [].
Proof.
  induction 1 as [q|q x a q1 l q' N Ha _ IH]; [apply goes_refl|]. change (@nil (bytes * bytes)) with ([] ++ @nil (bytes * bytes)).
  eapply goes_trans; [|exact IH]. destruct q. exact (fetch_goes _ _ _ _ _ _ _ N).
Qed.
Lemma silence_goes : forall q, goes q (after_silence ex_label q) [].
Proof. intros [script t acc ready]. apply passed_goes. Qed.

Lemma program_goes : forall ok max n q ops n' q' log l, queue_program rec ok max n q ops n' q' log l -> goes q q' (sent_commands ops l).
Proof.
  induction 1 as [n q|n q me c ops n' q' log l Hf Hr Ht _ IH|n q me c ops n' q' log l Hr _ IH
    |n q me c a others q1 ops n' q' log l Hf Hr Ht Ho _ IH|n q me c ops n' q' log l Hr _ IH
    |n q all q1 ops n' q' log l Ho Hz _ IH
    |n q me c others q1 ops n' q' log l Hf Hr Ht Ho Hm Hn _ IH|n q some q1 ops n' q' log l Ho Hz Hn _ IH]; cbn [sent_commands].
  - apply goes_refl.
  - change (as_sent c :: sent_commands ops l) with ([as_sent c] ++ sent_commands ops l). eapply goes_trans; [exact (goes_accept q (Label n me c))|exact IH].
  - exact IH.
  - change (as_sent c :: sent_commands ops l) with ([as_sent c] ++ [] ++ sent_commands ops l).
    eapply goes_trans; [exact (goes_accept q (Label n me c))|]. eapply goes_trans; [exact (handed_goes _ _ _ _ Ho)|exact IH].
  - exact IH.
  - change (sent_commands ops l) with ([] ++ sent_commands ops l). eapply goes_trans; [exact (handed_goes _ _ _ _ Ho)|exact IH].
  - change (as_sent c :: sent_commands ops l) with ([as_sent c] ++ [] ++ [] ++ sent_commands ops l).
    eapply goes_trans; [exact (goes_accept q (Label n me c))|]. eapply goes_trans; [exact (handed_goes _ _ _ _ Ho)|].
    eapply goes_trans; [apply silence_goes|exact IH].
  - change (sent_commands ops l) with ([] ++ [] ++ sent_commands ops l). eapply goes_trans; [exact (handed_goes _ _ _ _ Ho)|].
    eapply goes_trans; [apply silence_goes|exact IH].
Qed.

Context {A : Type} (sense_of : bytes -> result unit) (timeout : Z).
Notation ok := (fun a => is_check_condition (a_status a) (a_driver a) = true -> sense_of (pad 255 (a_sense a)) = Ok tt).
Lemma executed_once : forall s script t ops n' q' log l, queue_idle s script (t, []) ->
  queue_program rec ok (max_queue_size s) 0 (Queue script (t, []) [] []) ops n' q' log l ->
  NoDup (callbacks ops) -> (forall me, In me (callbacks ops) -> ~ In me (map fst (cb_log s))) ->
  exists s', program_runs (linux_os (A := A) sense_of (patient rec) timeout) s ops s' l /\
    let w := world s' in let d := l_dev w in
    fst (q_target d) = executed_all tgt (snd (q_target d)) t /\
    Permutation (snd (q_target d) ++ map (fun b => (described_cdb b (l_heap w), described_data b (l_heap w))) (q_accepted d)) (sent_commands ops l) /\
    (pending s' = [] -> q_accepted d = []).
Proof.
  intros s script t ops n' q' log l Hi P ND Hl. pose proof (idle_linked timeout _ _ _ Hi) as L. destruct Hi as (_ & H2 & _).
  destruct (program (A := A) sense_of rec timeout (max_queue_size s) (packet_index s) H2 _ _ _ _ _ _ _ P s _ L eq_refl)
    as (Q' & s1 & L1 & E1 & C1 & R1); [exact ND|exact Hl|].
  exists s1. split; [exact R1|]. destruct (program_goes _ _ _ _ _ _ _ _ _ P) as (more & G1 & G2 & G3). cbn [q_target snd fst app q_accepted map] in *.
  cbv zeta. rewrite (lk_dev _ _ _ _ _ _ L1). cbn [map_queue q_target q_accepted].
  assert (E2 : q_target Q' = q_target q') by (rewrite <- E1; reflexivity). rewrite E2. split; [rewrite G1; exact G2|].
  split; [|intros Hp; pose proof (lk_count _ _ _ _ _ _ L1) as X; rewrite Hp in X; symmetry in X; apply length_zero_nil in X;
           unfold outstanding in X; apply app_eq_nil in X as [X _]; rewrite X; reflexivity].
  rewrite G1, G3. apply Permutation_app_head. rewrite <- E1. cbn [map_queue q_accepted]. rewrite !map_map.
  apply Permutation_refl'. apply map_ext_in. intros e He.
  destruct (lk_ok _ _ _ _ _ _ L1 e) as (Y1 & Y2 & Y3); [unfold outstanding; apply in_or_app; auto|].
  destruct (region_described timeout _ _ _ _ _ _ Y1 Y3 Y2) as [D1 D2]. unfold block, as_sent. rewrite D1, D2. reflexivity.
Qed.
End Executed.
