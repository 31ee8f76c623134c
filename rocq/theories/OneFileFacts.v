(** Lemmas on several executers over one file. *)
From Coq Require Import ZArith List Bool Lia Permutation.
From Verif Require Import Base BaseFacts Gen SpecGen GenFacts Executer SpecCall ExecFacts ExecGenFacts ExecStepFacts
  OsCommon OsLinux SpecSg SpecSession SpecExecute LinuxFacts SessionFacts SpecQueue QueueFacts SpecGiveUp GiveUpFacts SpecOneFile.
Import ListNotations.
Local Open Scope Z_scope.

Lemma nth_put_eq : forall X k (x y : X) l, nth_error l k = Some y -> nth_error (put k x l) k = Some x.
Proof. induction k; intros x y [|z l] H; cbn in *; try discriminate; eauto. Qed.
Lemma nth_put_neq : forall X k j (x : X) l, k <> j -> nth_error (put k x l) j = nth_error l j.
Proof. induction k; intros [|j] x [|z l] H; cbn; auto; try congruence. Qed.
Lemma put_length : forall X k (x : X) l, length (put k x l) = length l.
Proof. induction k; intros x [|z l]; cbn; auto. Qed.
Lemma put_in : forall X k (x y : X) l, In y (put k x l) -> y = x \/ In y l.
Proof.
  induction k; intros x y [|z l] H; cbn in *; try tauto; [destruct H; auto|].
  destruct H as [H|H]; [auto|]. apply IHk in H. tauto.
Qed.

Section OneFile.
Context {T A : Type} (sense_of : bytes -> result unit) (tgt : target T).
Notation ex := (executer sgio (linux_world (queue sg_hdr T))).
Notation os timeout := (linux_os (A := A) sense_of (patient tgt) timeout).
Notation ok := (linux_answer sense_of).
Context (Hok : forall t cdb data, ok (snd (tgt t cdb data))).

Record item : Type := Item { i_ticket : ticket; i_time : Z; i_req : sgio; i_h0 : heap; i_h1 : heap }.
Definition iblock (e : item) : sg_hdr := hdr (i_req e).
Definition seq_of (e : item) : Z := t_seq (i_ticket e).
Definition item_ok (h : heap) (e : item) : Prop :=
  sgio_create (t_number (i_ticket e)) (t_cmd (i_ticket e)) (i_time e) (i_h0 e) = (i_h1 e, i_req e) /\
  fits (t_cmd (i_ticket e)) /\ region h (i_h0 e) (i_h1 e) /\ 0 <= t_number (i_ticket e) < 2 ^ 31.
Definition iapart (e e' : item) : Prop :=
  (length (i_h1 e) <= length (i_h0 e'))%nat \/ (length (i_h1 e') <= length (i_h0 e))%nat.
Record common (h : heap) (n : Z) (Q : queue item T) : Prop := Common {
  cm_ok : forall e, In e (outstanding Q) -> item_ok h e;
  cm_seq : forall e, In e (outstanding Q) -> seq_of e < n;
  cm_nodup : NoDup (map seq_of (outstanding Q));
  cm_apart : forall e e', In e (outstanding Q) -> In e' (outstanding Q) -> seq_of e <> seq_of e' -> iapart e e';
  cm_good : Forall (fun p => ok (snd p)) (q_ready Q)
}.

Lemma fetch_items : forall script t acc ready x a q, Forall (fun p : item * answer => ok (snd p)) ready ->
  fetch (fun e => execute_ticket tgt (i_ticket e)) script t acc ready = Some (x, a, q) -> ok a /\ Forall (fun p => ok (snd p)) (q_ready q).
Proof.
  induction script as [|[i|i|] rest IH]; intros t acc ready x a q F H; cbn [fetch] in H; [discriminate| | |discriminate].
  - destruct (nth_error acc i) as [y|]; [|eauto].
    destruct (execute_ticket tgt (i_ticket y) t) as [t' b] eqn:E. eapply IH; [|exact H]. apply Forall_app. split; auto.
    constructor; auto. cbn [snd]. unfold execute_ticket in E. pose proof (Hok t (command_of (t_cmd (i_ticket y))) (data_out (t_cmd (i_ticket y)))) as K.
    rewrite E in K. exact K.
  - destruct (nth_error ready i) as [[y b]|] eqn:E; [|eauto]. inversion H; subst. cbn [q_ready]. split.
    + rewrite Forall_forall in F. exact (F _ (nth_error_In _ _ E)).
    + rewrite Forall_forall in *. intros p Hp. apply F. unfold without in Hp. apply in_app_iff in Hp as [Hp|Hp].
      * rewrite <- (firstn_skipn i). apply in_or_app. auto.
      * rewrite <- (firstn_skipn (S i)). apply in_or_app. auto.
Qed.
Lemma passed_items : forall script t acc ready, Forall (fun p : item * answer => ok (snd p)) ready ->
  Forall (fun p => ok (snd p)) (q_ready (passed (fun e => execute_ticket tgt (i_ticket e)) script t acc ready)).
Proof.
  induction script as [|[i|i|] rest IH]; intros t acc ready F; cbn [passed]; auto.
  destruct (nth_error acc i) as [y|]; auto.
  destruct (execute_ticket tgt (i_ticket y) t) as [t' b] eqn:E. apply IH. apply Forall_app. split; auto.
  constructor; auto. cbn [snd]. unfold execute_ticket in E. pose proof (Hok t (command_of (t_cmd (i_ticket y))) (data_out (t_cmd (i_ticket y)))) as K.
  rewrite E in K. exact K.
Qed.

(** Reading from the file: the world as it is afterwards, whoever reads. *)
Lemma read_some : forall h n Q e a Q', common h n Q -> next (fun e => execute_ticket tgt (i_ticket e)) Q = Some (e, a, Q') ->
  sg_read (patient tgt) h (map_queue iblock Q) = (completed_mem (iblock e) a h, map_queue iblock Q', Ok (Some (completed_hdr (iblock e) a))) /\
  common (completed_mem (iblock e) a h) n Q' /\ In e (outstanding Q) /\ ok a.
Proof.
  intros h n Q e a Q' C E. pose proof (next_perm _ _ _ _ _ _ _ E) as P.
  assert (Ie : In e (outstanding Q)) by (eapply Permutation_in; [symmetry; exact P|left; reflexivity]).
  destruct (fetch_items _ _ _ _ _ _ _ (cm_good _ _ _ C) E) as [Ha Hg].
  split; [|split; [|auto]].
  - cbn [sg_read patient]. unfold patient_read. rewrite next_map.
    replace (next _ Q) with (Some (e, a, Q')); [reflexivity|]. rewrite <- E. unfold next. apply fetch_same.
    intros y Hy t. destruct (cm_ok _ _ _ C y) as (Y1 & Y2 & Y3 & _); [unfold outstanding; apply in_or_app; auto|].
    destruct (region_described _ _ _ _ _ _ _ Y1 Y3 Y2) as [D1 D2]. unfold execute_ticket, iblock. rewrite D1, D2. reflexivity.
  - destruct (cm_ok _ _ _ C e Ie) as (Hc & _).
    assert (Sub : forall y, In y (outstanding Q') -> In y (outstanding Q)).
    { intros y Hy. eapply Permutation_in; [symmetry; exact P|right; exact Hy]. }
    pose proof (Permutation_NoDup (Permutation_map seq_of P) (cm_nodup _ _ _ C)) as ND.
    cbn [map] in ND. inversion ND as [|z zs Nin ND']; subst.
    constructor; auto.
    + intros y Hy. destruct (cm_ok _ _ _ C y (Sub y Hy)) as (Y1 & Y2 & (Y3 & Y4) & Y5).
      split; [exact Y1|]. split; [exact Y2|]. split; [|exact Y5]. split; [rewrite mem_length; exact Y3|].
      intros p Hp. unfold iblock. rewrite (outside_untouched _ _ _ _ _ _ a h p Hc); [apply Y4; exact Hp|].
      destruct (cm_apart _ _ _ C e y Ie (Sub y Hy)) as [G|G]; [|lia|lia].
      intros F. apply Nin. rewrite F. apply in_map. exact Hy.
    + intros y Hy. apply (cm_seq _ _ _ C). auto.
    + intros y y' Hy Hy'. apply (cm_apart _ _ _ C); auto.
Qed.
Lemma read_none : forall h n Q, common h n Q -> next (fun e => execute_ticket tgt (i_ticket e)) Q = None ->
  let Q' := after_silence (fun e => execute_ticket tgt (i_ticket e)) Q in
  sg_read (patient tgt) h (map_queue iblock Q) = (h, map_queue iblock Q', Err (EIO 0)) /\ common h n Q'.
Proof.
  intros h n Q C N Q'.
  assert (Same : forall y, In y (q_accepted Q) -> forall t, tgt t (described_cdb (iblock y) h) (described_data (iblock y) h) = execute_ticket tgt (i_ticket y) t).
  { intros y Hy t. destruct (cm_ok _ _ _ C y) as (Y1 & Y2 & Y3 & _); [unfold outstanding; apply in_or_app; auto|].
    destruct (region_described _ _ _ _ _ _ _ Y1 Y3 Y2) as [D1 D2]. unfold execute_ticket, iblock. rewrite D1, D2. reflexivity. }
  split.
  - cbn [sg_read patient]. unfold patient_read. rewrite next_map, silence_map.
    replace (next _ Q) with (next (fun e => execute_ticket tgt (i_ticket e)) Q) by (unfold next; symmetry; apply fetch_same; exact Same).
    rewrite N. unfold Q', after_silence. rewrite (passed_same _ _ _ _ _ _ _ _ Same). reflexivity.
  - assert (P : Permutation (outstanding Q) (outstanding Q')) by apply silence_perm.
    assert (Sub : forall y, In y (outstanding Q') -> In y (outstanding Q)).
    { intros y Hy. eapply Permutation_in; [symmetry; exact P|exact Hy]. }
    constructor.
    + intros e He. apply (cm_ok _ _ _ C). auto.
    + intros e He. apply (cm_seq _ _ _ C). auto.
    + eapply Permutation_NoDup; [apply Permutation_map; exact P|]. apply (cm_nodup _ _ _ C).
    + intros e e' He He'. apply (cm_apart _ _ _ C); auto.
    + apply passed_items. apply (cm_good _ _ _ C).
Qed.

Definition outcome_fits (x : seen) timeout me c (s s' : ex) : Prop :=
  match x with
  | Answered rp => sync_wait_ends (call (os timeout) me c) s s' (user_sees rp)
  | Failed e => sync_wait_ends (call (os timeout) me c) s s' (Threw e)
  | Went => False
  end.

Lemma a_call_ends : forall timeout (s : ex) n Q me c b x b' q',
  pending s = [] -> packet_index s = b_index b -> max_queue_size s = b_max b -> 1 <= b_max b <= 2 ^ 31 -> 0 <= b_index b < b_max b ->
  common (l_heap (world s)) n Q -> l_dev (world s) = map_queue iblock Q -> fits c -> ~ In me (map fst (cb_log s)) ->
  one_call tgt n b (map_queue i_ticket Q) c = (x, b', q') ->
  exists Q' s', map_queue i_ticket Q' = q' /\ common (l_heap (world s')) (n + 1) Q' /\ l_dev (world s') = map_queue iblock Q' /\
    (b_broken b' = false -> pending s' = []) /\ packet_index s' = b_index b' /\ max_queue_size s' = b_max b' /\ b_max b' = b_max b /\
    0 <= b_index b' < b_max b' /\
    (forall m, In m (map fst (cb_log s')) -> m = me \/ In m (map fst (cb_log s))) /\ outcome_fits x timeout me c s s'.
Proof.
  intros timeout s n Q me c b x b' q' Hpen Hidx Hmx Bm Bi C Hdev Hf Hlog H.
  set (idx := packet_index s). set (h := l_heap (world s)) in *.
  destruct (sgio_create idx c timeout h) as [h1 r] eqn:Hcr.
  set (e := Item (Ticket n (b_index b) c) timeout r h h1).
  destruct (created_pointers timeout _ _ _ _ _ Hcr) as ((new & En) & _ & _ & _ & Hdb).
  set (w2 := LinuxWorld h1 (map_queue iblock (accept e Q)) (l_buffer (world s))).
  set (s0 := with_world (at_send s r (Some me)) w2).
  assert (Hlab : map_queue i_ticket (accept e Q) = accept (Ticket n (b_index b) c) (map_queue i_ticket Q)).
  { unfold map_queue, accept. cbn [q_script q_target q_accepted q_ready]. rewrite map_app. reflexivity. }
  assert (Hroom : zlen (pending s) < max_queue_size s) by (rewrite Hpen, Hmx; unfold zlen; cbn; lia).
  assert (Hsend : forall pp, evaluates (send (os timeout) c (Some me)) (Send VNone) pp s s0 (CallReturns (VData (DInt 88)) true)).
  { assert (Hb : send_begin (os timeout) c (Some me) s = (with_world (at_send s r (Some me)) (LinuxWorld h1 (l_dev (world s)) (l_buffer (world s))), Ok (idx, r))).
    { apply begin_ok; [exact Hroom|]. cbn [os_prepare_to_send linux_os]. unfold linux_prepare, at_prepare. cbn [world with_index].
      fold h idx. rewrite Hcr. reflexivity. }
    intros pp. eapply (send_succeeds (os timeout) c (Some me) s _ _ idx r VNone _ _ pp Hb).
    eapply ev_value.
    + cbn [os_send linux_os linux_send resume world with_world l_heap l_dev l_buffer sg_write patient].
      unfold queueing_write. rewrite Hdev. reflexivity.
    + apply vdata_not_exn.
    + replace (with_world _ (LinuxWorld h1 (accept (hdr r) (map_queue iblock Q)) (l_buffer (world s)))) with s0.
      * apply ev_finish; [reflexivity|apply vdata_not_exn].
      * unfold s0, w2, map_queue, accept. cbn [q_script q_target q_accepted q_ready]. rewrite map_app. reflexivity. }
  assert (Hout : forall y, In y (outstanding (accept e Q)) <-> y = e \/ In y (outstanding Q)).
  { intros y. unfold outstanding, accept. cbn [q_accepted q_ready]. rewrite !in_app_iff. cbn [In]. split; intros; intuition congruence. }
  assert (C1 : common h1 (n + 1) (accept e Q)).
  { constructor.
    - intros y Hy. apply Hout in Hy as [->|Hy].
      + unfold item_ok, e. cbn [i_ticket i_time i_h0 i_h1 i_req t_number t_cmd]. rewrite <- Hidx. split; [exact Hcr|].
        split; [exact Hf|]. split; [split; [lia|auto]|]. lia.
      + destruct (cm_ok _ _ _ C y Hy) as (Y1 & Y2 & (Y3 & Y4) & Y5). split; [exact Y1|]. split; [exact Y2|]. split; [|exact Y5].
        split; [rewrite En, app_length; lia|]. intros p Hp. rewrite En, nth_error_app1 by lia. apply Y4. exact Hp.
    - intros y Hy. apply Hout in Hy as [->|Hy]; [cbn; lia|]. pose proof (cm_seq _ _ _ C y Hy). lia.
    - assert (P : Permutation (outstanding (accept e Q)) (e :: outstanding Q)).
      { unfold outstanding, accept. cbn [q_accepted q_ready]. rewrite <- app_assoc. cbn [app]. symmetry. apply Permutation_middle. }
      eapply Permutation_NoDup; [symmetry; apply Permutation_map; exact P|]. cbn [map]. constructor; [|apply (cm_nodup _ _ _ C)].
      intros F. apply in_map_iff in F as (y & F & Hy). pose proof (cm_seq _ _ _ C y Hy). rewrite F in H0. cbn in H0. lia.
    - intros y y' Hy Hy' D. apply Hout in Hy. apply Hout in Hy'. destruct Hy as [->|Hy], Hy' as [->|Hy'].
      + congruence.
      + right. destruct (cm_ok _ _ _ C y' Hy') as (_ & _ & (Y3 & _) & _). exact Y3.
      + left. destruct (cm_ok _ _ _ C y Hy) as (_ & _ & (Y3 & _) & _). exact Y3.
      + apply (cm_apart _ _ _ C); auto.
    - apply (cm_good _ _ _ C). }
  assert (Hp0 : pending s0 = [(idx, (r, Some me))]).
  { unfold s0, at_send. cbn [pending with_world with_pending]. rewrite Hpen. reflexivity. }
  assert (Hne : pending s0 <> []) by (rewrite Hp0; discriminate).
  assert (Hq0 : results_of me s0 = []) by (apply (quiet_log me s0); exact Hlog).
  assert (Bnext : 0 <= (b_index b + 1) mod b_max b < b_max b) by (apply Z.mod_pos_bound; lia).
  unfold one_call in H. rewrite <- Hlab, next_map, silence_map in H.
  destruct (next (fun e => execute_ticket tgt (i_ticket e)) (accept e Q)) as [[[o a] Q1]|] eqn:E.
  2:{ destruct (read_none _ _ _ C1 E) as (Hread & C2). inversion H; subst x b' q'. clear H.
    set (Q' := after_silence (fun e0 => execute_ticket tgt (i_ticket e0)) (accept e Q)) in *.
    exists Q', (with_world s0 (LinuxWorld h1 (map_queue iblock Q') (l_buffer (world s)))).
    split; [reflexivity|]. split; [exact C2|]. split; [reflexivity|]. split; [discriminate|].
    split; [cbn [b_index]; rewrite <- Hidx, <- Hmx; reflexivity|]. split; [cbn [b_max]; exact Hmx|]. split; [reflexivity|]. split; [exact Bnext|].
    split; [auto|]. cbn [outcome_fits].
    apply sync_wait_raise. eapply ev_call; [reflexivity|apply Hsend|].
    eapply ev_call_raise; [rewrite call_loop_unfold; cbn [resume]; rewrite Hq0; reflexivity| |apply ev_raise; rewrite call_loop_unfold; reflexivity].
    eapply ev_call_raise.
    - simpl. unfold is_queue_empty, zlen. rewrite Hp0. reflexivity.
    - apply ev_raise. cbn [os_receive linux_os linux_receive resume].
      change (l_heap (world s0)) with h1. change (l_dev (world s0)) with (map_queue iblock (accept e Q)). rewrite Hread. reflexivity.
    - apply ev_raise. reflexivity. }
  destruct (read_some _ _ _ _ _ _ C1 E) as (Hread & C2 & Io & Ha).
  set (s1 := with_world s0 (LinuxWorld (completed_mem (iblock o) a h1) (map_queue iblock Q1) (l_buffer (world s)))).
  destruct (cm_ok _ _ _ C1 o Io) as (Hc & Hfo & Hr & Bn).
  assert (Hpid : pack_id (iblock o) = t_number (i_ticket o)).
  { pose proof (created_sense (i_time o) _ _ _ _ _ Hc) as (_ & _ & _ & Hp). unfold iblock. rewrite Hp, c_int_small; [reflexivity|]. lia. }
  destruct (created_pointers (i_time o) _ _ _ _ _ Hc) as (_ & (ps & Hps & Bps) & _).
  assert (Hsense : string_at (sbp (completed_hdr (iblock o) a)) 255 (l_heap (world s1)) = Ok (pad 255 (a_sense a))).
  { change (l_heap (world s1)) with (completed_mem (iblock o) a h1). cbn [sbp completed_hdr].
    rewrite <- (created_sense_read (i_time o) _ _ _ _ _ a Hc). unfold string_at, iblock. rewrite Hps.
    fold (iblock o). replace (nth_error (completed_mem (iblock o) a h1) ps) with (nth_error (completed_mem (iblock o) a (i_h1 o)) ps); [reflexivity|].
    apply nth_completed. symmetry. apply Hr. exact Bps. }
  destruct (Z.eqb_spec (t_number (i_ticket o)) idx) as [En'|En'].
  - (* the number is that of the call *)
    assert (Hg : dict_get idx (pending s1) = Some (r, Some me)) by (change (pending s1) with (pending s0); rewrite Hp0; cbn; rewrite Z.eqb_refl; reflexivity).
    set (out := if seq_of o =? n then linux_expected c a else linux_expected c (without_data a)).
    assert (Hx : x = Answered out /\ b' = Book ((b_index b + 1) mod b_max b) (b_max b) false /\ q' = map_queue i_ticket Q1).
    { unfold out, seq_of. rewrite <- Hidx in H. fold idx in H. apply Z.eqb_eq in En'. rewrite En' in H. rewrite <- Hidx.
      destruct (t_seq (i_ticket o) =? n); inversion H; auto. }
    destruct Hx as (-> & -> & ->).
    assert (Hh : linux_handle sense_of (Some (completed_hdr (iblock o) a)) s1 = Ok (out, idx)).
    { destruct (created_bounds timeout _ _ _ _ _ Hcr) as [_ Hb2].
      rewrite (linux_handle_spec sense_of s1 _ r (Some me) (pad 255 (a_sense a))).
      - cbn [status host_status driver_status completed_hdr pack_id]. rewrite Hpid, En'.
        change (l_heap (world s1)) with (completed_mem (iblock o) a h1). unfold out.
        destruct (Z.eqb_spec (seq_of o) n) as [Es|Es].
        + assert (o = e).
          { apply (nodup_map_in _ _ seq_of (outstanding (accept e Q))); [apply (cm_nodup _ _ _ C1)|exact Io|apply Hout; auto|rewrite Es; reflexivity]. }
          subst o. unfold iblock, e. cbn [i_req].
          rewrite (created_data_read timeout _ _ _ _ _ a Hcr Hf). reflexivity.
        + apply Hout in Io as [->|Io]; [exfalso; apply Es; reflexivity|].
          destruct (cm_ok _ _ _ C o Io) as (_ & _ & (Hlen & _) & _). fold h in Hlen.
          replace (match data_buffer r with Some p => nth_error (completed_mem (iblock o) a h1) p | None => None end)
            with (match data_buffer r with Some p => nth_error (completed_mem (hdr r) (Answer 0 0 0 [] []) h1) p | None => None end).
          * rewrite (created_data_read timeout _ _ _ _ _ (Answer 0 0 0 [] []) Hcr Hf). reflexivity.
          * destruct (data_buffer r) as [p|]; auto. unfold iblock. rewrite (outside_untouched (i_time o) _ _ _ _ _ a h1 p Hc).
            -- unfold completed_mem. cbn [a_data a_sense]. rewrite !poke_nothing. destruct (_ =? -3); reflexivity.
            -- right. specialize (Hdb p eq_refl). lia.
      - cbn [pack_id completed_hdr]. rewrite Hpid, En'. exact Hg.
      - cbn [status driver_status completed_hdr]. intros Hcc. split; auto.
      - intros p Hp. change (l_heap (world s1)) with (completed_mem (iblock o) a h1). rewrite mem_length.
        specialize (Hdb p Hp). lia.
      - exact Hb2. }
    set (s2 := with_log (with_pending s1 (dict_del idx (pending s1))) (cb_log s1 ++ [(me, out)])).
    exists Q1, s2. split; [reflexivity|]. split; [exact C2|]. split; [reflexivity|].
    split; [intros _; unfold s2; cbn [pending with_log with_pending]; change (pending s1) with (pending s0); rewrite Hp0; cbn; rewrite Z.eqb_refl; reflexivity|].
    split; [cbn [b_index]; rewrite <- Hidx, <- Hmx; reflexivity|]. split; [cbn [b_max]; exact Hmx|]. split; [reflexivity|]. split; [exact Bnext|].
    split.
    { intros m Hm. unfold s2 in Hm. cbn [cb_log with_log] in Hm. rewrite map_app, in_app_iff in Hm. cbn in Hm.
      destruct Hm as [Hm|[Hm|[]]]; auto. }
    cbn [outcome_fits]. apply sync_user_sees.
    eapply ev_call; [reflexivity|apply Hsend|].
    eapply ev_call; [rewrite call_loop_unfold; cbn [resume]; rewrite Hq0; reflexivity| |].
    + eapply process_succeeds; [exact Hne| |].
      * exact (linux_receive_evaluates sense_of (patient tgt) timeout s0 _ _ _ _ _ false Hread Hh).
      * apply (complete_some _ _ s1 r me). exact Hg.
    + eapply call_loop_end; [|apply vdata_not_exn].
      rewrite (results_of_app me s0 (cb_log s0) eq_refl me out) by reflexivity.
      rewrite (quiet_log me s0 Hlog), Nat.eqb_refl. reflexivity.
  - (* another number *)
    assert (Es : t_seq (i_ticket o) <> n).
    { intros F. apply En'. apply Hout in Io as [->|Io]; [cbn; symmetry; exact Hidx|].
      pose proof (cm_seq _ _ _ C o Io) as X. unfold seq_of in X. lia. }
    assert (Hx : x = Failed (if is_clean (a_status a) (a_host a) (a_driver a) then EAttribute else EAsiInternal) /\
                 b' = Book ((b_index b + 1) mod b_max b) (b_max b) true /\ q' = map_queue i_ticket Q1).
    { rewrite <- Hidx in H. fold idx in H. rewrite <- Hidx. apply Z.eqb_neq in En'. apply Z.eqb_neq in Es. rewrite En', Es in H. inversion H; auto. }
    destruct Hx as (-> & -> & ->).
    assert (Hg : dict_get (pack_id (completed_hdr (iblock o) a)) (pending s0) = None).
    { cbn [pack_id completed_hdr]. rewrite Hpid, Hp0. cbn. destruct (Z.eqb_spec idx (t_number (i_ticket o))); congruence. }
    exists Q1, s1. split; [reflexivity|]. split; [exact C2|]. split; [reflexivity|]. split; [discriminate|].
    split; [cbn [b_index]; rewrite <- Hidx, <- Hmx; reflexivity|]. split; [cbn [b_max]; exact Hmx|]. split; [reflexivity|]. split; [exact Bnext|].
    split; [auto|]. cbn [outcome_fits].
    apply sync_wait_raise. eapply ev_call; [reflexivity|apply Hsend|].
    eapply ev_call_raise; [rewrite call_loop_unfold; cbn [resume]; rewrite Hq0; reflexivity| |apply ev_raise; rewrite call_loop_unfold; reflexivity].
    destruct (is_clean (a_status a) (a_host a) (a_driver a)) eqn:Ec.
    + unfold is_clean in Ec. apply andb_true_iff in Ec as [Ec Ec3]. apply andb_true_iff in Ec as [Ec1 Ec2].
      apply Z.eqb_eq in Ec1, Ec2, Ec3.
      eapply ev_call_raise.
      * simpl. unfold is_queue_empty, zlen. rewrite Hp0. reflexivity.
      * eapply (clean_unknown sense_of (patient tgt) timeout s0); [exact Hread|exact Hg|exact Ec1|exact Ec3|exact Ec2].
      * apply ev_raise. reflexivity.
    + assert (Hh : exists rp, linux_handle sense_of (Some (completed_hdr (iblock o) a)) s1 = Ok (rp, t_number (i_ticket o))).
      { unfold linux_handle. cbv zeta. cbn [status host_status driver_status pack_id]. rewrite linux_guard.
        change (pack_id (completed_hdr (iblock o) a)) with (pack_id (iblock o)). rewrite Hpid.
        change (status (completed_hdr (iblock o) a)) with (a_status a). change (driver_status (completed_hdr (iblock o) a)) with (a_driver a).
        change (host_status (completed_hdr (iblock o) a)) with (a_host a).
        destruct (is_check_condition (a_status a) (a_driver a)) eqn:Ecc.
        - unfold SENSE_SIZE. rewrite Hsense. cbn [bind]. unfold check_condition. rewrite (Ha Ecc). eexists. reflexivity.
        - unfold is_clean in Ec. rewrite land_15.
          destruct (a_status a =? 0), (a_driver a mod 16 =? 0), (a_host a =? 0); cbn in *; try discriminate; eauto;
            destruct (a_host a =? 7); eauto; destruct (a_host a =? SCSI_STATUS_RESERVATION_CONFLICT); eauto. }
      destruct Hh as [rp Hh].
      assert (Hcomp : complete rp (t_number (i_ticket o)) s1 = (s1, Err EAsiInternal)).
      { change (pack_id (completed_hdr (iblock o) a)) with (pack_id (iblock o)) in Hg. rewrite Hpid in Hg.
        unfold complete. change (pending s1) with (pending s0). rewrite Hg. reflexivity. }
      eapply process_raises; [exact Hne| |exact Hcomp].
      exact (linux_receive_evaluates sense_of (patient tgt) timeout s0 _ _ _ _ _ false Hread Hh).
Qed.

Definition in_order (p : Z * ex) (b : book) : Prop :=
  (b_broken b = false -> pending (snd p) = []) /\ packet_index (snd p) = b_index b /\ max_queue_size (snd p) = b_max b /\
  1 <= b_max b <= 2 ^ 31 /\ 0 <= b_index b < b_max b.
Lemma put_Forall2 : forall X Y (R : X -> Y -> Prop) k x y l l', Forall2 R l l' -> R x y -> Forall2 R (put k x l) (put k y l').
Proof. intros X Y R k x y l l' H. revert k. induction H; intros [|k] Hxy; cbn; constructor; auto. Qed.
Lemma Forall2_nth : forall X Y (R : X -> Y -> Prop) k l l' y, Forall2 R l l' -> nth_error l' k = Some y -> exists x, nth_error l k = Some x /\ R x y.
Proof. intros X Y R k l l' y H. revert k. induction H; intros [|k] E; cbn in *; try discriminate; eauto. inversion E; subst. eauto. Qed.

Lemma turns_end : forall ops n es w books Q l n' books' q, Forall2 in_order es books -> common (l_heap w) n Q -> l_dev w = map_queue iblock Q ->
  Forall fits (map what ops) -> new_callbacks es ops ->
  in_turns tgt n books (map_queue i_ticket Q) ops = Some (l, (n', books', q)) ->
  exists es' w' Q', users_run A sense_of tgt es w ops l es' w' /\ q = map_queue i_ticket Q' /\ l_dev w' = map_queue iblock Q'.
Proof.
  induction ops as [|[[k me] c] ops IH]; intros n es w books Q l n' books' q F2 C Hdev Hf [ND Hnew] H; cbn [in_turns] in H.
  { inversion H; subst. exists es, w, Q. split; [constructor|auto]. }
  destruct (nth_error books k) as [b|] eqn:Eb; [|discriminate]. destruct (b_broken b) eqn:Ebr; [discriminate|].
  destruct (one_call tgt n b (map_queue i_ticket Q) c) as [[x b'] q'] eqn:Ec.
  destruct (in_turns tgt (n + 1) (put k b' books) q' ops) as [[l1 [[n1 b1] q1]]|] eqn:Er; [|discriminate].
  inversion H; subst; clear H.
  destruct (Forall2_nth _ _ _ _ _ _ _ F2 Eb) as ([timeout s] & Es & Hp & Hi & Hm & Bm & Bi). cbn [snd] in *.
  inversion Hf as [|z zs Hfc Hfr]; subst. cbn [map] in ND. inversion ND as [|z zs Nin ND']; subst. unfold whom in Nin; cbn [fst snd] in Nin. fold whom in Nin.
  destruct (a_call_ends timeout (with_world s w) n Q me c b x b' q') as (Q' & s' & EQ & C' & D' & P' & I' & M' & MM & B' & L' & O'); auto.
  { apply (Hnew (timeout, s) (k, me, c)); [eapply nth_error_In; exact Es|left; reflexivity]. }
  subst q'.
  destruct (IH (n + 1) (put k (timeout, s') es) (world s') (put k b' books) Q' l1 n' books' q) as (es' & w' & Q2 & R & E1 & E2); auto.
  - apply put_Forall2; [exact F2|]. split; [exact P'|]. split; [exact I'|]. split; [exact M'|]. split; [rewrite MM; exact Bm|exact B'].
  - split; [exact ND'|]. intros p o Hin Ho Hbad. apply put_in in Hin as [->|Hin].
    + cbn [snd] in Hbad. apply L' in Hbad as [Hbad|Hbad].
      * apply Nin. apply in_map_iff. exists o. split; [exact Hbad|exact Ho].
      * apply (Hnew (timeout, s) o); [eapply nth_error_In; exact Es|right; exact Ho|exact Hbad].
    + apply (Hnew p o Hin); [right; exact Ho|exact Hbad].
  - exists es', w', Q2. split; [|auto]. destruct x as [|rp|e]; cbn [outcome_fits] in O'; [destruct O'| |].
    + eapply ur_answered; eauto.
    + eapply ur_failed; eauto.
Qed.

Theorem one_file_programs : forall es w books script t ops l n books' q, all_at_rest es w books script t ->
  Forall fits (map what ops) -> new_callbacks es ops ->
  in_turns tgt 0 books (Queue script t [] []) ops = Some (l, (n, books', q)) ->
  exists es' w', users_run A sense_of tgt es w ops l es' w' /\ q_target (l_dev w') = q_target q /\
    length (q_accepted (l_dev w')) = length (q_accepted q).
Proof.
  intros es w books script t ops l n books' q [F2 D] Hf Hn H.
  destruct (turns_end ops 0 es w books (Queue script t [] []) l n books' q) as (es' & w' & Q' & R & E1 & E2); auto.
  - clear - F2. induction F2 as [|p b es books (H1 & H2 & H3 & H4 & H5 & H6) F2 IH]; constructor; auto. repeat split; auto; lia.
  - constructor; [intros e []|intros e []|apply NoDup_nil|intros e e' []|apply Forall_nil].
  - exists es', w'. split; [exact R|]. rewrite E2, E1. cbn. rewrite !map_length. auto.
Qed.

(** As long as nothing fails. *)
Lemma fetch_ready : forall script t (x : ticket) a y b q, fetch (execute_ticket tgt) script t [] [(x, a)] = Some (y, b, q) ->
  y = x /\ b = a /\ exists rest, q = Queue rest t [] [].
Proof.
  induction script as [|[[|i]|[|i]|] rest IH]; intros t x a y b q H; cbn in H; try discriminate; eauto.
  - inversion H; subst. eauto.
  - destruct i; cbn in H; eauto.
Qed.
Lemma fetch_alone : forall script t (x : ticket) y a q, fetch (execute_ticket tgt) script t [x] [] = Some (y, a, q) ->
  y = x /\ exists rest, execute_ticket tgt x t = (q_target q, a) /\ q = Queue rest (q_target q) [] [].
Proof.
  induction script as [|[[|i]|[|i]|] rest IH]; intros t x y a q H; cbn [fetch nth_error] in H; try discriminate; eauto.
  - destruct (execute_ticket tgt x t) as [t' a'] eqn:E. cbn in H. apply fetch_ready in H as (-> & -> & r & ->). split; auto. exists r. auto.
  - destruct i; cbn [nth_error] in H; eauto.
Qed.
Lemma right_turns : forall ops n books script t l n' books' q, in_turns tgt n books (Queue script t [] []) ops = Some (l, (n', books', q)) ->
  nothing_failed l -> one_after_another tgt t (map what ops) = (q_target q, l).
Proof.
  induction ops as [|[[k me] c] ops IH]; intros n books script t l n' books' q H N; cbn [in_turns] in H.
  { inversion H; subst. reflexivity. }
  destruct (nth_error books k) as [b|]; [|discriminate]. destruct (b_broken b); [discriminate|].
  destruct (one_call tgt n b (Queue script t [] []) c) as [[x b'] q'] eqn:Ec.
  destruct (in_turns tgt (n + 1) (put k b' books) q' ops) as [[l1 [[n1 b1] q1]]|] eqn:Er; [|discriminate].
  inversion H; subst; clear H. inversion N as [|z zs Nx N']; subst.
  unfold one_call in Ec. unfold next, accept in Ec. cbn [q_script q_target q_accepted q_ready app] in Ec.
  destruct (fetch (execute_ticket tgt) script t [Ticket n (b_index b) c] []) as [[[y a] q2]|] eqn:E; [|inversion Ec; subst; destruct Nx].
  apply fetch_alone in E as (-> & rest & E & Eq). cbn [t_seq] in Ec. rewrite Z.eqb_refl in Ec. inversion Ec; subst; clear Ec.
  rewrite Eq in Er. apply IH in Er; auto. unfold execute_ticket in E. cbn [t_cmd] in E.
  cbn [map one_after_another]. change (what (k, me, c)) with c. rewrite E, Er. reflexivity.
Qed.
Theorem one_file_right : forall es w books script t ops l n books' q, all_at_rest es w books script t ->
  Forall fits (map what ops) -> new_callbacks es ops ->
  in_turns tgt 0 books (Queue script t [] []) ops = Some (l, (n, books', q)) -> nothing_failed l ->
  exists es' w', users_run A sense_of tgt es w ops l es' w' /\ one_after_another tgt t (map what ops) = (q_target (l_dev w'), l).
Proof.
  intros es w books script t ops l n books' q H1 H2 H3 H4 H5.
  destruct (one_file_programs es w books script t ops l n books' q H1 H2 H3 H4) as (es' & w' & R & E & _).
  exists es', w'. split; [exact R|]. rewrite E. eapply right_turns; eauto.
Qed.

Lemma nth_put : forall X k j (x y : X) l, k <> j -> nth_error l j = Some y -> nth_error (put k x l) j = Some y.
Proof. intros. rewrite nth_put_neq by auto. auto. Qed.
Theorem one_file_thrown_away : forall es w books rest t k1 k2 b1 b2 me1 me2 c1 c2,
  all_at_rest es w books (Silence :: Run 0 :: HandOver 0 :: rest) t -> fits c1 -> fits c2 -> new_callbacks es [(k1, me1, c1); (k2, me2, c2)] ->
  k1 <> k2 -> nth_error books k1 = Some b1 -> nth_error books k2 = Some b2 -> b_index b1 = b_index b2 ->
  let (t1, a1) := tgt t (command_of c1) (data_out c1) in
  exists es' w', users_run A sense_of tgt es w [(k1, me1, c1); (k2, me2, c2)]
      [Failed (EIO 0); Answered (linux_expected c2 (without_data a1))] es' w' /\
    q_target (l_dev w') = t1 /\ length (q_accepted (l_dev w')) = 1%nat.
Proof.
  intros es w books rest t k1 k2 b1 b2 me1 me2 c1 c2 R F1 F2 N K N1 N2 E. destruct (tgt t (command_of c1) (data_out c1)) as [t1 a1] eqn:Et.
  assert (B : forall k b, nth_error books k = Some b -> b_broken b = false).
  { intros k b Hb. destruct R as [R _]. destruct (Forall2_nth _ _ _ _ _ _ _ R Hb) as (p & _ & _ & _ & _ & _ & _ & X). exact X. }
  destruct (one_file_programs es w books (Silence :: Run 0 :: HandOver 0 :: rest) t [(k1, me1, c1); (k2, me2, c2)]
    [Failed (EIO 0); Answered (linux_expected c2 (without_data a1))] 2
    (put k2 (Book ((b_index b2 + 1) mod b_max b2) (b_max b2) false) (put k1 (Book ((b_index b1 + 1) mod b_max b1) (b_max b1) true) books))
    (Queue rest t1 [Ticket 1 (b_index b2) c2] [])) as (es' & w' & X & Y & Z); auto.
  - repeat constructor; auto; apply F1 || apply F2.
  - cbn [in_turns]. rewrite N1, (B _ _ N1). unfold one_call at 1. unfold next, accept, after_silence. cbn [q_script q_target q_accepted q_ready app fetch passed].
    rewrite (nth_put _ _ _ _ _ _ K N2), (B _ _ N2). unfold one_call, next, accept. cbn [q_script q_target q_accepted q_ready app fetch nth_error without firstn skipn].
    unfold execute_ticket at 1. cbn [t_cmd]. rewrite Et. cbn [nth_error t_seq t_number Z.eqb]. rewrite E, Z.eqb_refl. reflexivity.
  - exists es', w'. split; [exact X|]. split; [exact Y|exact Z].
Qed.
End OneFile.
