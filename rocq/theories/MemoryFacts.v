(** Lemmas on the memory of commands that are out on Linux. *)
From Coq Require Import ZArith List Bool Lia Permutation.
From Verif Require Import Base BaseFacts Gen SpecGen GenFacts Executer SpecCall ExecFacts ExecGenFacts ExecStepFacts
  OsCommon OsLinux SpecSg SpecSession LinuxFacts SessionFacts SpecQueue QueueFacts SpecGiveUp GiveUpFacts SpecMemory.
Import ListNotations.
Open Scope Z_scope.

Section Memory.
Context {T A : Type} (sense_of : bytes -> result unit) (tgt : target T) (timeout max b : Z).
Notation ex := (executer sgio (linux_world (queue sg_hdr T))).
Notation os := (linux_os (A := A) sense_of (patient tgt) timeout).
Notation ok := (fun a => is_check_condition (a_status a) (a_driver a) = true -> sense_of (pad 255 (a_sense a)) = Ok tt).
Context (Hmax : 1 <= max <= 2 ^ 31).

(** A request block points to what its object keeps: all of the region that was allocated for it. *)
Lemma created_kept : forall idx c h r h', sgio_create idx c timeout h = (h', r) ->
  needed (hdr r) = kept_by r /\ needed (hdr r) <> [] /\ forall p, In p (kept_by r) <-> (length h <= p < length h')%nat.
Proof.
  intros idx c h r h' H. unfold sgio_create, alloc in H.
  destruct c as [cdb n|cdb data]; [destruct (0 <? n)|]; inversion H; subst; clear H;
    (split; [reflexivity|]); (split; [discriminate|]); intros p; unfold kept_by, pieces;
    cbn [hdr sbp cmdp data_buffer flat_map app In]; rewrite ?app_length; cbn [length]; lia.
Qed.

(** The pending packets are those of the requests that are out. *)
Lemma linked_pending : forall (s : ex) n Q, linked timeout max b s n Q ->
  Permutation (map (fun e => (slot_of max b (e_label e), (e_req e, Some (l_me (e_label e))))) (outstanding Q)) (pending s).
Proof.
  intros s n Q L. apply NoDup_Permutation_bis.
  - apply (NoDup_map_inv fst). rewrite map_map. exact (lk_slots _ _ _ _ _ _ L).
  - rewrite map_length, (lk_count _ _ _ _ _ _ L). lia.
  - intros p Hp. apply in_map_iff in Hp as (e & <- & He). apply dict_get_in. exact (lk_get _ _ _ _ _ _ L e He).
Qed.

Lemma linked_held : forall (s : ex) n Q, linked timeout max b s n Q -> Permutation (map e_req (outstanding Q)) (held s).
Proof.
  intros s n Q L. pose proof (Permutation_map (fun p => fst (snd p)) (linked_pending s n Q L)) as P.
  rewrite map_map in P. exact P.
Qed.

Lemma linked_kept : forall (s : ex) n Q, linked timeout max b s n Q -> memory_kept s.
Proof.
  intros s n Q L. pose proof (linked_held s n Q L) as P. split.
  - rewrite (lk_dev _ _ _ _ _ _ L), outstanding_map. rewrite <- P, map_map. reflexivity.
  - apply Forall_forall. intros r Hr. apply (Permutation_in _ (Permutation_sym P)) in Hr. apply in_map_iff in Hr as (e & <- & He).
    destruct (lk_ok _ _ _ _ _ _ L e He) as (Hc & _). destruct (created_kept _ _ _ _ _ Hc) as (-> & _). apply incl_refl.
Qed.

Lemma dict_set_in : forall X k (v : X) i w d, NoDup (map fst d) -> In (k, v) (dict_set i w d) ->
  k = i /\ v = w \/ k <> i /\ In (k, v) d.
Proof.
  induction d as [|[j u] d IH]; intros ND H; cbn [dict_set] in H.
  - destruct H as [H|[]]. inversion H; auto.
  - cbn [map fst] in ND. inversion ND as [|z zs N1 N2]; subst. destruct (Z.eqb_spec j i) as [->|Ne].
    + destruct H as [H|H]; [inversion H; auto|]. right. split; [|right; exact H].
      intros ->. apply N1. apply in_map_iff. exists (i, v). auto.
    + destruct H as [H|H]; [inversion H; subst; right; split; [exact Ne|left; reflexivity]|].
      destruct (IH N2 H) as [G|[G1 G2]]; auto. right. split; [exact G1|right; exact G2].
Qed.

(** A packet number is given again while the command that had it is out. *)
Lemma dropped : forall (s : ex) n Q me c old, linked timeout max b s n Q ->
  zlen (outstanding (map_queue e_label Q)) < max ->
  l_seq old = n - max -> In old (outstanding (map_queue e_label Q)) ->
  exists s' blk, sync_wait_ends (send os c (Some me)) s s' (Returned (RVal (VData (DInt 88)))) /\ cb_log s' = cb_log s /\
    dangling blk s' /\
    described_cdb blk (l_heap (world s')) = command_of (l_cmd old) /\ described_data blk (l_heap (world s')) = data_out (l_cmd old).
Proof.
  intros s n Q me c old L Hroom Hold Hin.
  rewrite outstanding_map in Hroom. unfold zlen in Hroom. rewrite map_length in Hroom.
  assert (Hroom' : zlen (pending s) < max_queue_size s).
  { unfold zlen. rewrite (lk_count _ _ _ _ _ _ L), (lk_max _ _ _ _ _ _ L). exact Hroom. }
  rewrite outstanding_map in Hin. apply in_map_iff in Hin as (o & N1 & Io).
  set (idx := packet_index s). set (h := l_heap (world s)).
  destruct (sgio_create idx c timeout h) as [h1 r] eqn:Hcr.
  set (e := Entry (Label n me c) r h h1).
  destruct (created_pointers timeout _ _ _ _ _ Hcr) as ((new & En) & _).
  set (w1 := LinuxWorld h1 (l_dev (world s)) (l_buffer (world s))).
  set (w2 := LinuxWorld h1 (map_queue block (accept e Q)) (l_buffer (world s))).
  set (s0 := with_world (at_send s r (Some me)) w2).
  assert (Hsend : forall pp, evaluates (send os c (Some me)) (Send VNone) pp s s0 (CallReturns (VData (DInt 88)) true)).
  { assert (Hb : send_begin os c (Some me) s = (with_world (at_send s r (Some me)) w1, Ok (idx, r))).
    { apply begin_ok; [exact Hroom'|]. cbn [os_prepare_to_send linux_os]. unfold linux_prepare, at_prepare. cbn [world with_index].
      fold h idx. rewrite Hcr. reflexivity. }
    intros pp. eapply (send_succeeds os c (Some me) s _ _ idx r VNone _ _ pp Hb).
    eapply ev_value.
    + cbn [os_send linux_os linux_send resume world with_world l_heap l_dev l_buffer sg_write patient w1].
      unfold queueing_write. rewrite (lk_dev _ _ _ _ _ _ L). reflexivity.
    + apply vdata_not_exn.
    + replace (with_world _ (LinuxWorld h1 (accept (hdr r) (map_queue block Q)) (l_buffer (world s)))) with s0.
      * apply ev_finish; [reflexivity|apply vdata_not_exn].
      * unfold s0, w2, map_queue, accept. cbn [q_script q_target q_accepted q_ready]. rewrite map_app. reflexivity. }
  destruct (lk_ok _ _ _ _ _ _ L o Io) as (Hc & Hfo & Hr). fold h in Hr.
  assert (Hslot : slot_of max b (e_label o) = idx).
  { unfold idx. rewrite (lk_index _ _ _ _ _ _ L). unfold slot_of. rewrite N1, Hold.
    replace (b + (n - max)) with (b + n + (-1) * max) by lia. apply Z_mod_plus_full. }
  destruct (created_kept _ _ _ _ _ Hc) as (K1 & K2 & K3). destruct (created_kept _ _ _ _ _ Hcr) as (_ & _ & R3).
  exists s0, (block o). split; [apply sync_wait_value; apply Hsend|]. split; [reflexivity|].
  split; [split; [|split; [exact K2|]]|].
  - change (l_dev (world s0)) with (map_queue block (accept e Q)). rewrite outstanding_map. apply in_map.
    unfold outstanding, accept. cbn [q_accepted q_ready]. unfold outstanding in Io. rewrite !in_app_iff in *. tauto.
  - intros x p Hx Hp Hk. unfold block in Hp. rewrite K1 in Hp. apply K3 in Hp.
    unfold held in Hx. apply in_map_iff in Hx as ((k & y & cb) & <- & Hy). cbn [fst snd] in Hk.
    change (pending s0) with (dict_set idx (r, Some me) (pending s)) in Hy.
    apply dict_set_in in Hy; [|exact (lk_keys _ _ _ _ _ _ L)]. destruct Hy as [[_ Hy]|[Nk Hy]].
    + inversion Hy; subst y. apply R3 in Hk. destruct Hr as [Hr _]. lia.
    + apply (Permutation_in _ (Permutation_sym (linked_pending s n Q L))) in Hy. apply in_map_iff in Hy as (e' & E' & Ie').
      inversion E'; subst k y cb. destruct (lk_ok _ _ _ _ _ _ L e' Ie') as (Hc' & _).
      apply (created_kept _ _ _ _ _ Hc') in Hk.
      destruct (lk_apart _ _ _ _ _ _ L o e' Io Ie') as [G|G]; [rewrite Hslot; apply not_eq_sym; exact Nk|lia|lia].
  - change (l_heap (world s0)) with h1. rewrite <- N1. unfold block. eapply (region_described timeout); [exact Hc| |exact Hfo].
    destruct Hr as [Hr1 Hr2]. split; [rewrite En, app_length; lia|].
    intros p Hp. rewrite En, nth_error_app1 by lia. apply Hr2. exact Hp.
Qed.

Context (reuse : ex -> heap) (Hreuse : forall s, may_become s (reuse s)).
Definition gc (s : ex) : ex := with_heap s (reuse s).
Lemma gc_linked : forall s n Q, linked timeout max b s n Q -> linked timeout max b (gc s) n Q.
Proof.
  intros s n Q L. destruct (Hreuse s) as [G1 G2]. destruct L. constructor; auto.
  intros e He. destruct (lk_ok e He) as (Y1 & Y2 & Y3 & Y4). split; [exact Y1|]. split; [exact Y2|].
  change (l_heap (world (gc s))) with (reuse s). split; [lia|]. intros p Hp. rewrite <- (Y4 p Hp).
  apply (G2 (e_req e)).
  - unfold held. apply in_map_iff. exists (slot_of max b (e_label e), (e_req e, Some (l_me (e_label e)))). split; [reflexivity|].
    apply dict_get_in. exact (lk_get e He).
  - apply (created_kept _ _ _ _ _ Y1). exact Hp.
Qed.

(** ** Programs *)
Lemma program_reused : forall n q ops n' q' log l, queue_program tgt ok max n q ops n' q' log l ->
  forall s Q, linked timeout max b s n Q -> map_queue e_label Q = q ->
  NoDup (map l_me (outstanding q) ++ callbacks ops) -> (forall me, In me (callbacks ops) -> ~ In me (map fst (cb_log s))) ->
  exists Q' s', linked timeout max b s' n' Q' /\ map_queue e_label Q' = q' /\ cb_log s' = cb_log s ++ log /\ runs_while_reused os reuse s ops s' l.
Proof.
  induction 1 as [n q|n q me c ops n' q' log l Hf Hr Ht _ IH|n q me c ops n' q' log l Hr _ IH
    |n q me c a others q1 ops n' q' log l Hf Hr Ht Ho _ IH|n q me c ops n' q' log l Hr _ IH
    |n q all q1 ops n' q' log l Ho Hz _ IH
    |n q me c others q1 ops n' q' log l Hf Hr Ht Ho Hm Hn _ IH|n q some q1 ops n' q' log l Ho Hz Hn _ IH]; intros s Q L E ND Hl.
  - exists Q, s. split; [exact L|]. split; [exact E|]. split; [rewrite app_nil_r; reflexivity|constructor].
  - subst q. destruct (submit_one (A := A) sense_of tgt timeout max b Hmax s n Q me c L Hf Hr Ht) as (Q1 & s1 & L1 & E1 & C1 & V1).
    destruct (IH (gc s1) Q1 (gc_linked _ _ _ L1) E1) as (Q2 & s2 & L2 & E2 & C2 & R2); [| |change (cb_log (gc s1)) with (cb_log s1) in C2].
    + eapply Permutation_NoDup; [|exact ND]. cbn [callbacks flat_map app].
      unfold outstanding, accept. cbn [q_accepted q_ready]. rewrite !map_app. cbn [map l_me].
      rewrite <- !app_assoc. apply Permutation_app_head. cbn [app]. symmetry. apply Permutation_middle.
    + intros m Hm. change (cb_log (gc s1)) with (cb_log s1). rewrite C1. apply Hl. cbn. auto.
    + exists Q2, s2. split; [exact L2|]. split; [exact E2|]. split; [rewrite C2, C1; reflexivity|].
      eapply rr_op; [eapply pg_submit; [|constructor]|exact R2]. apply sync_wait_value. apply V1.
  - subst q. destruct (IH (gc s) Q (gc_linked _ _ _ L) eq_refl) as (Q2 & s2 & L2 & E2 & C2 & R2); [| |change (cb_log (gc s)) with (cb_log s) in C2].
    + cbn [callbacks flat_map app] in ND. eapply NoDup_remove_1; exact ND.
    + intros m Hm. change (cb_log (gc s)) with (cb_log s). apply Hl. cbn. auto.
    + exists Q2, s2. split; [exact L2|]. split; [exact E2|]. split; [exact C2|].
      eapply rr_op; [eapply pg_submit_fails; [|constructor]|exact R2]. apply sync_wait_raise. apply full_send.
      unfold zlen in *. rewrite (lk_max _ _ _ _ _ _ L), (lk_count _ _ _ _ _ _ L). rewrite outstanding_map, map_length in Hr. exact Hr.
  - subst q.
    assert (P : Permutation (map l_me (outstanding (accept (Label n me c) (map_queue e_label Q))) ++ callbacks ops)
                            (map l_me (outstanding (map_queue e_label Q)) ++ callbacks (Call me c :: ops))).
    { cbn [callbacks flat_map app]. unfold outstanding, accept. cbn [q_accepted q_ready]. rewrite !map_app. cbn [map l_me].
      rewrite <- !app_assoc. apply Permutation_app_head. cbn [app]. apply Permutation_middle. }
    pose proof (Permutation_NoDup (Permutation_sym P) ND) as ND1.
    destruct (call_one (A := A) sense_of tgt timeout max b Hmax s n Q me c a others q1 L Hf Hr Ht Ho) as (Q1 & s1 & L1 & E1 & C1 & V1).
    + apply NoDup_app_remove_r in ND1. exact ND1.
    + apply Hl. cbn. auto.
    + pose proof (Permutation_map l_me (handed_over_perm sense_of tgt _ _ _ Ho)) as P1. rewrite map_app in P1.
      assert (ND2 : NoDup ((map l_me (map fst (others ++ [(Label n me c, a)])) ++ map l_me (outstanding q1)) ++ callbacks ops)).
      { eapply Permutation_NoDup; [|exact ND1]. apply Permutation_app_tail. exact P1. }
      destruct (IH (gc s1) Q1 (gc_linked _ _ _ L1) E1) as (Q2 & s2 & L2 & E2 & C2 & R2); [| |change (cb_log (gc s1)) with (cb_log s1) in C2].
      * rewrite <- app_assoc in ND2. apply NoDup_app_remove_l in ND2. exact ND2.
      * intros m Hm. change (cb_log (gc s1)) with (cb_log s1). rewrite C1, map_app, in_app_iff. intros [F|F]; [revert F; apply Hl; cbn; auto|].
        rewrite <- app_assoc in ND2. 
        assert (X : In m (map l_me (map fst (others ++ [(Label n me c, a)])))) by (rewrite map_map in *; exact F).
        apply in_split in X as (y1 & y2 & X). rewrite X, <- app_assoc in ND2. cbn [app] in ND2.
        apply NoDup_remove_2 in ND2. apply ND2. rewrite !in_app_iff. auto.
      * exists Q2, s2. split; [exact L2|]. split; [exact E2|]. split; [rewrite C2, C1, <- app_assoc; reflexivity|].
        eapply rr_op; [eapply pg_call; [eauto|constructor]|exact R2].
  - subst q. destruct (IH (gc s) Q (gc_linked _ _ _ L) eq_refl) as (Q2 & s2 & L2 & E2 & C2 & R2); [| |change (cb_log (gc s)) with (cb_log s) in C2].
    + cbn [callbacks flat_map app] in ND. eapply NoDup_remove_1; exact ND.
    + intros m Hm. change (cb_log (gc s)) with (cb_log s). apply Hl. cbn. auto.
    + exists Q2, s2. split; [exact L2|]. split; [exact E2|]. split; [exact C2|].
      eapply rr_op; [eapply pg_call_fails; [|constructor]|exact R2]. apply sync_wait_raise. apply full_call.
      unfold zlen in *. rewrite (lk_max _ _ _ _ _ _ L), (lk_count _ _ _ _ _ _ L). rewrite outstanding_map, map_length in Hr. exact Hr.
  - subst q. destruct (wait_all (A := A) sense_of tgt timeout max b Hmax s n Q all q1 L Ho Hz) as (Q1 & s1 & v & L1 & E1 & C1 & V1).
    pose proof (Permutation_map l_me (handed_over_perm sense_of tgt _ _ _ Ho)) as P1. rewrite Hz, app_nil_r in P1.
    assert (ND2 : NoDup (map l_me (map fst all) ++ callbacks ops)).
    { eapply Permutation_NoDup; [|exact ND]. apply Permutation_app_tail. exact P1. }
    destruct (IH (gc s1) Q1 (gc_linked _ _ _ L1) E1) as (Q2 & s2 & L2 & E2 & C2 & R2); [| |change (cb_log (gc s1)) with (cb_log s1) in C2].
    + rewrite Hz. cbn. apply NoDup_app_remove_l in ND2. exact ND2.
    + intros m Hm. change (cb_log (gc s1)) with (cb_log s1). rewrite C1, map_app, in_app_iff. intros [F|F]; [revert F; apply Hl; cbn; auto|].
      assert (X : In m (map l_me (map fst all))) by (rewrite map_map in *; exact F).
      apply in_split in X as (y1 & y2 & X). rewrite X, <- app_assoc in ND2. cbn [app] in ND2.
      apply NoDup_remove_2 in ND2. apply ND2. rewrite !in_app_iff. auto.
    + exists Q2, s2. split; [exact L2|]. split; [exact E2|]. split; [rewrite C2, C1, <- app_assoc; reflexivity|].
      eapply rr_op; [eapply pg_wait; [eauto|constructor]|exact R2].
  - subst q.
    assert (P : Permutation (map l_me (outstanding (accept (Label n me c) (map_queue e_label Q))) ++ callbacks ops)
                            (map l_me (outstanding (map_queue e_label Q)) ++ callbacks (Call me c :: ops))).
    { cbn [callbacks flat_map app]. unfold outstanding, accept. cbn [q_accepted q_ready]. rewrite !map_app. cbn [map l_me].
      rewrite <- !app_assoc. apply Permutation_app_head. cbn [app]. apply Permutation_middle. }
    pose proof (Permutation_NoDup (Permutation_sym P) ND) as ND1.
    destruct (call_given_up (A := A) sense_of tgt timeout max b Hmax s n Q me c others q1 L Hf Hr Ht Ho Hm Hn) as (Q1 & s1 & L1 & E1 & C1 & V1).
    + apply NoDup_app_remove_r in ND1. exact ND1.
    + apply Hl. cbn. auto.
    + assert (P1 : Permutation (map l_me (outstanding (accept (Label n me c) (map_queue e_label Q))))
         (map l_me (map fst others) ++ map l_me (outstanding (after_silence (execute_label tgt) q1)))).
      { rewrite <- map_app. apply Permutation_map. rewrite <- silence_perm. exact (handed_over_perm sense_of tgt _ _ _ Ho). }
      assert (ND2 : NoDup ((map l_me (map fst others) ++ map l_me (outstanding (after_silence (execute_label tgt) q1))) ++ callbacks ops)).
      { eapply Permutation_NoDup; [|exact ND1]. apply Permutation_app_tail. exact P1. }
      destruct (IH (gc s1) Q1 (gc_linked _ _ _ L1) E1) as (Q2 & s2 & L2 & E2 & C2 & R2); [| |change (cb_log (gc s1)) with (cb_log s1) in C2].
      * rewrite <- app_assoc in ND2. apply NoDup_app_remove_l in ND2. exact ND2.
      * intros m Hm'. change (cb_log (gc s1)) with (cb_log s1). rewrite C1, map_app, in_app_iff. intros [F|F]; [revert F; apply Hl; cbn; auto|].
        rewrite <- app_assoc in ND2.
        assert (X : In m (map l_me (map fst others))) by (rewrite map_map in *; exact F).
        apply in_split in X as (y1 & y2 & X). rewrite X, <- app_assoc in ND2. cbn [app] in ND2.
        apply NoDup_remove_2 in ND2. apply ND2. rewrite !in_app_iff. auto.
      * exists Q2, s2. split; [exact L2|]. split; [exact E2|]. split; [rewrite C2, C1, <- app_assoc; reflexivity|].
        eapply rr_op; [eapply pg_call_fails; [eauto|constructor]|exact R2].
  - subst q. destruct (wait_given_up (A := A) sense_of tgt timeout max b Hmax s n Q some q1 L Ho Hz Hn) as (Q1 & s1 & L1 & E1 & C1 & V1).
    assert (P1 : Permutation (map l_me (outstanding (map_queue e_label Q)))
       (map l_me (map fst some) ++ map l_me (outstanding (after_silence (execute_label tgt) q1)))).
    { rewrite <- map_app. apply Permutation_map. rewrite <- silence_perm. exact (handed_over_perm sense_of tgt _ _ _ Ho). }
    assert (ND2 : NoDup ((map l_me (map fst some) ++ map l_me (outstanding (after_silence (execute_label tgt) q1))) ++ callbacks ops)).
    { eapply Permutation_NoDup; [|exact ND]. apply Permutation_app_tail. exact P1. }
    destruct (IH (gc s1) Q1 (gc_linked _ _ _ L1) E1) as (Q2 & s2 & L2 & E2 & C2 & R2); [| |change (cb_log (gc s1)) with (cb_log s1) in C2].
    + rewrite <- app_assoc in ND2. apply NoDup_app_remove_l in ND2. exact ND2.
    + intros m Hm. change (cb_log (gc s1)) with (cb_log s1). rewrite C1, map_app, in_app_iff. intros [F|F]; [revert F; apply Hl; cbn; auto|].
      rewrite <- app_assoc in ND2.
      assert (X : In m (map l_me (map fst some))) by (rewrite map_map in *; exact F).
      apply in_split in X as (y1 & y2 & X). rewrite X, <- app_assoc in ND2. cbn [app] in ND2.
      apply NoDup_remove_2 in ND2. apply ND2. rewrite !in_app_iff. auto.
    + exists Q2, s2. split; [exact L2|]. split; [exact E2|]. split; [rewrite C2, C1, <- app_assoc; reflexivity|].
      eapply rr_op; [eapply pg_wait_fails; [eauto|constructor]|exact R2].
Qed.
End Memory.

Section Programs.
Context {T A : Type} (sense_of : bytes -> result unit) (tgt : target T) (timeout : Z).
Notation ok := (fun a => is_check_condition (a_status a) (a_driver a) = true -> sense_of (pad 255 (a_sense a)) = Ok tt).
Notation os := (linux_os (A := A) sense_of (patient tgt) timeout).

Theorem programs_keep : forall s script t ops n' q' log l, queue_idle s script t ->
  queue_program tgt ok (max_queue_size s) 0 (Queue script t [] []) ops n' q' log l ->
  NoDup (callbacks ops) -> (forall me, In me (callbacks ops) -> ~ In me (map fst (cb_log s))) ->
  exists s', program_runs os s ops s' l /\ cb_log s' = cb_log s ++ log /\ memory_kept s'.
Proof.
  intros s script t ops n' q' log l Hi H ND Hl. pose proof (idle_linked timeout _ _ _ Hi) as L. destruct Hi as (_ & H2 & _).
  destruct (program (A := A) sense_of tgt timeout (max_queue_size s) (packet_index s) H2 _ _ _ _ _ _ _ H s _ L eq_refl ND Hl)
    as (Q' & s' & L' & E' & C' & R').
  exists s'. split; [exact R'|]. split; [exact C'|]. exact (linked_kept _ _ _ _ _ _ L').
Qed.

Theorem programs_reused : forall s script t ops n' q' log l reuse, queue_idle s script t -> (forall s, may_become s (reuse s)) ->
  queue_program tgt ok (max_queue_size s) 0 (Queue script t [] []) ops n' q' log l ->
  NoDup (callbacks ops) -> (forall me, In me (callbacks ops) -> ~ In me (map fst (cb_log s))) ->
  exists s', runs_while_reused os reuse s ops s' l /\ cb_log s' = cb_log s ++ log /\ memory_kept s'.
Proof.
  intros s script t ops n' q' log l reuse Hi Hr H ND Hl. pose proof (idle_linked timeout _ _ _ Hi) as L. destruct Hi as (_ & H2 & _).
  destruct (program_reused (A := A) sense_of tgt timeout (max_queue_size s) (packet_index s) H2 reuse Hr _ _ _ _ _ _ _ H s _ L eq_refl ND Hl)
    as (Q' & s' & L' & E' & C' & R').
  exists s'. split; [exact R'|]. split; [exact C'|]. exact (linked_kept _ _ _ _ _ _ L').
Qed.

Theorem program_drops : forall s script t ops n q log l me c old, queue_idle s script t ->
  queue_program tgt ok (max_queue_size s) 0 (Queue script t [] []) ops n q log l ->
  NoDup (callbacks ops) -> (forall m, In m (callbacks ops) -> ~ In m (map fst (cb_log s))) ->
  zlen (outstanding q) < max_queue_size s -> In old (outstanding q) -> l_seq old = n - max_queue_size s ->
  exists s' blk, program_runs os s (ops ++ [Submit me c]) s' (l ++ [Went]) /\ dangling blk s' /\
    described_cdb blk (l_heap (world s')) = command_of (l_cmd old) /\ described_data blk (l_heap (world s')) = data_out (l_cmd old).
Proof.
  intros s script t ops n q log l me c old Hi P ND Hl Hz Ho Hs.
  pose proof (idle_linked timeout _ _ _ Hi) as L. destruct Hi as (_ & H2 & _).
  destruct (program (A := A) sense_of tgt timeout (max_queue_size s) (packet_index s) H2 _ _ _ _ _ _ _ P s _ L eq_refl ND Hl)
    as (Q' & s1 & L1 & E1 & C1 & R1).
  rewrite <- E1 in Hz, Ho.
  destruct (dropped (A := A) sense_of tgt timeout (max_queue_size s) (packet_index s) H2 s1 n Q' me c old L1 Hz Hs Ho) as (s2 & blk & V & _ & D).
  exists s2, blk. split; [|exact D]. eapply program_runs_app; [exact R1|]. eapply pg_submit; [exact V|constructor].
Qed.
End Programs.
