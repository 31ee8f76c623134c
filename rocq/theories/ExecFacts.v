(** Proofs about CommandExecuterBase as an event machine. *)
From Coq Require Import ZArith List Bool Lia Permutation.
From Verif Require Import Base BaseFacts Executer SpecExec.
Import ListNotations.
Open Scope Z_scope.


Section DictFacts.
Context {A : Type}.
Implicit Types (d : dict A).

Lemma dict_get_set_eq : forall k v d, dict_get k (dict_set k v d) = Some v.
Proof.
  induction d as [|[j w] r IH]; simpl.
  - rewrite Z.eqb_refl; auto.
  - destruct (j =? k) eqn:E; simpl; rewrite E; auto.
Qed.

Lemma dict_get_set_neq : forall k j v d, j <> k -> dict_get j (dict_set k v d) = dict_get j d.
Proof.
  induction d as [|[i w] r IH]; simpl; intros.
  - destruct (k =? j) eqn:E; auto. apply Z.eqb_eq in E; congruence.
  - destruct (Z.eqb_spec i k); simpl; destruct (Z.eqb_spec i j); auto; congruence.
Qed.

Lemma dict_get_none_set : forall k v d, dict_get k d = None -> dict_set k v d = d ++ [(k, v)].
Proof.
  induction d as [|[j w] r IH]; simpl; intros; auto.
  destruct (j =? k); [discriminate|]. rewrite IH; auto.
Qed.

Lemma dict_del_set : forall k v d, dict_get k d = None -> dict_del k (dict_set k v d) = d.
Proof.
  induction d as [|[j w] r IH]; simpl; intros.
  - rewrite Z.eqb_refl; auto.
  - destruct (j =? k) eqn:E; [discriminate|]. simpl. rewrite E. rewrite IH; auto.
Qed.

Lemma dict_set_length : forall k v d, (length (dict_set k v d) <= S (length d))%nat.
Proof.
  induction d as [|[j w] r IH]; simpl; auto. destruct (j =? k); simpl; lia.
Qed.

Lemma dict_set_length_ge : forall k v d, (length d <= length (dict_set k v d))%nat.
Proof.
  induction d as [|[j w] r IH]; simpl; auto. destruct (j =? k); simpl; lia.
Qed.

Lemma dict_del_length : forall k d, (length (dict_del k d) <= length d)%nat.
Proof.
  induction d as [|[j w] r IH]; simpl; auto. destruct (j =? k); simpl; lia.
Qed.

Lemma dict_del_length_some : forall k v d, dict_get k d = Some v -> S (length (dict_del k d)) = length d.
Proof.
  induction d as [|[j w] r IH]; simpl; intros; [discriminate|].
  destruct (j =? k); simpl; auto.
Qed.

Lemma dict_get_del_neq : forall k j d, j <> k -> dict_get j (dict_del k d) = dict_get j d.
Proof.
  induction d as [|[i w] r IH]; simpl; intros; auto.
  destruct (Z.eqb_spec i k); simpl.
  - destruct (Z.eqb_spec i j); auto. congruence.
  - destruct (Z.eqb_spec i j); auto.
Qed.

Lemma dict_get_notin : forall k d, ~ In k (map fst d) -> dict_get k d = None.
Proof.
  induction d as [|[i w] r IH]; simpl; intros; auto.
  destruct (Z.eqb_spec i k); [tauto|]. apply IH. tauto.
Qed.

Lemma dict_get_in : forall k v d, dict_get k d = Some v -> In (k, v) d.
Proof.
  induction d as [|[i w] r IH]; simpl; intros; [discriminate|].
  destruct (Z.eqb_spec i k); auto. inversion H; subst; auto.
Qed.

Lemma dict_in_get : forall k v d, NoDup (map fst d) -> In (k, v) d -> dict_get k d = Some v.
Proof.
  induction d as [|[i w] r IH]; simpl; intros; [contradiction|].
  inversion H; subst. destruct H0.
  - inversion H0; subst. rewrite Z.eqb_refl; auto.
  - destruct (Z.eqb_spec i k); auto. subst. exfalso. apply H3.
    apply in_map_iff. exists (k, v); auto.
Qed.

Lemma dict_del_keys : forall k d, NoDup (map fst d) -> NoDup (map fst (dict_del k d)).
Proof.
  induction d as [|[i w] r IH]; simpl; intros; auto.
  inversion H; subst. destruct (i =? k); auto. simpl. constructor; auto.
  intro. apply H2. clear - H0. induction r as [|[j x] r IH]; simpl in *; auto.
  destruct (j =? k); simpl in *; auto. destruct H0; auto.
Qed.

Lemma dict_get_del_eq : forall k d, NoDup (map fst d) -> dict_get k (dict_del k d) = None.
Proof.
  induction d as [|[i w] r IH]; simpl; intros; auto.
  inversion H; subst. destruct (Z.eqb_spec i k).
  - subst. apply dict_get_notin; auto.
  - simpl. destruct (Z.eqb_spec i k); [congruence|]. auto.
Qed.

Lemma dict_set_keys : forall k v d, NoDup (map fst d) -> NoDup (map fst (dict_set k v d)).
Proof.
  intros. destruct (dict_get k d) eqn:E.
  - replace (map fst (dict_set k v d)) with (map fst d); auto.
    clear - E. induction d as [|[i w] r IH]; simpl in *; [discriminate|].
    destruct (i =? k); simpl; auto. f_equal; auto.
  - rewrite dict_get_none_set by auto. rewrite map_app. simpl.
    apply Permutation_NoDup with (k :: map fst d).
    + apply Permutation_cons_append.
    + constructor; auto. intro Hin. apply in_map_iff in Hin as [[i w] [Hf Hin]]. simpl in Hf; subst.
      apply dict_in_get in Hin; auto. congruence.
Qed.

(** Deleting the [j]-th key of a dictionary without duplicates. *)
Lemma dict_del_nth : forall j d k v, NoDup (map fst d) -> nth_error d j = Some (k, v) ->
  dict_get k d = Some v /\ dict_del k d = drop_nth j d.
Proof.
  induction j; intros d k v Hnd Hn; destruct d as [|[i w] r]; try discriminate; simpl in *.
  - inversion Hn; subst. rewrite Z.eqb_refl. auto.
  - inversion Hnd; subst. destruct (Z.eqb_spec i k).
    + subst. exfalso. apply H1. apply nth_error_In in Hn. apply in_map_iff. exists (k, v); auto.
    + destruct (IHj r k v H2 Hn) as [Hg Hd]. split; auto. rewrite Hd. reflexivity.
Qed.

End DictFacts.

(** ** Invariants for every history *)
Section Inv.
Context {R W : Type}.
Notation ex := (executer R W).

Definition ex_inv (max : Z) (s : ex) : Prop :=
  max_queue_size s = max /\ zlen (pending s) <= max /\ NoDup (map fst (pending s)) /\
  0 <= packet_index s < max /\ Forall (fun p => 0 <= fst p < max) (pending s).

Lemma dict_set_forall : forall A (P : Z * A -> Prop) k v d,
  Forall P d -> P (k, v) -> Forall P (dict_set k v d).
Proof.
  induction d as [|[i w] r IH]; simpl; intros; [constructor; auto|].
  inversion H; subst. destruct (Z.eqb_spec i k); constructor; subst; auto.
Qed.

Lemma dict_del_forall : forall A (P : Z * A -> Prop) k d, Forall P d -> Forall P (dict_del k d).
Proof.
  induction d as [|[i w] r IH]; simpl; intros; auto.
  inversion H; subst. destruct (i =? k); auto.
Qed.

Lemma ex_do_inv : forall max (s : ex) ev, 1 <= max -> ex_inv max s -> ex_inv max (fst (ex_do s ev)).
Proof.
  intros max s ev Hmax [Hm [Hlen [Hnd [Hpi Hall]]]]. destruct ev as [r cb os|rp pid]; simpl.
  - unfold next_packet_index. destruct (max_queue_size s <=? zlen (pending s)) eqn:E.
    + simpl. repeat split; auto; try lia.
    + apply Z.leb_gt in E. rewrite Hm in E |- *.
      pose proof (dict_set_length (packet_index s) (r, cb) (pending s)).
      assert (Hk : NoDup (map fst (dict_set (packet_index s) (r, cb) (pending s)))) by (apply dict_set_keys; auto).
      assert (0 <= (packet_index s + 1) mod max < max) by (apply Z.mod_pos_bound; lia).
      assert (Forall (fun p => 0 <= fst p < max) (dict_set (packet_index s) (r, cb) (pending s)))
        by (apply dict_set_forall; auto).
      destruct os as [u|e]; simpl.
      * unfold ex_inv; simpl. unfold zlen in *. repeat split; auto; lia.
      * unfold send_abort; simpl. rewrite dict_get_set_eq. simpl.
        pose proof (dict_del_length (packet_index s) (dict_set (packet_index s) (r, cb) (pending s))).
        unfold ex_inv; simpl. unfold zlen in *.
        split; [auto|]. split; [lia|]. split; [apply dict_del_keys; auto|].
        split; [lia|]. apply dict_del_forall; auto.
  - unfold complete. destruct (dict_get pid (pending s)) as [[r [k|]]|] eqn:E; simpl.
    + pose proof (dict_del_length pid (pending s)). unfold ex_inv; simpl. unfold zlen in *.
      split; [auto|]. split; [lia|]. split; [apply dict_del_keys; auto|].
      split; [lia|]. apply dict_del_forall; auto.
    + pose proof (dict_del_length pid (pending s)). unfold ex_inv; simpl. unfold zlen in *.
      split; [auto|]. split; [lia|]. split; [apply dict_del_keys; auto|].
      split; [lia|]. apply dict_del_forall; auto.
    + repeat split; auto; lia.
Qed.

Lemma ex_run_inv : forall max h (s : ex), 1 <= max -> ex_inv max s -> ex_inv max (fst (ex_run s h)).
Proof.
  induction h; simpl; intros; auto.
  pose proof (ex_do_inv max s a H H0). destruct (ex_do s a) as [s1 o]. simpl in *.
  specialize (IHh s1 H H1). destruct (ex_run s1 h). auto.
Qed.

Lemma ex_init_inv : forall max (w : W), 1 <= max -> ex_inv max (executer_init max w).
Proof. intros. unfold ex_inv, executer_init, zlen; simpl. repeat split; try lia; constructor. Qed.

Lemma history_bound : forall max (w : W) (h : list (ex_event R)), 1 <= max ->
  let s := fst (ex_run (executer_init max w) h) in
  zlen (pending s) <= max /\ NoDup (map fst (pending s)).
Proof.
  intros max w h H s. destruct (ex_run_inv max h (executer_init max w) H (ex_init_inv max w H))
    as [_ [H1 [H2 _]]]. split; assumption.
Qed.

Lemma ex_full_rejected : forall (s : ex) r cb os,
  max_queue_size s <= zlen (pending s) -> ex_do s (EvSend r cb os) = (s, ObsRejected EName).
Proof.
  intros. simpl. unfold next_packet_index.
  destruct (Z.leb_spec (max_queue_size s) (zlen (pending s))); [auto|lia].
Qed.

End Inv.

(** ** Routing *)

Definition slot (max : Z) (p : Z * option nat) : Z * (unit * option nat) :=
  (fst p mod max, (tt, snd p)).

Definition linked (max : Z) (y : system) (q : ideal) : Prop :=
  max_queue_size (s_ex y) = max /\
  packet_index (s_ex y) = i_count q mod max /\
  s_flight y = map (fun p => fst p mod max) (i_flight q) /\
  pending (s_ex y) = map (slot max) (i_flight q) /\
  NoDup (map fst (i_flight q)) /\
  Forall (fun p => i_count q - max <= fst p < i_count q) (i_flight q).

Lemma residues_distinct : forall max a b c, 1 <= max ->
  c - max <= a < c -> c - max <= b < c -> a mod max = b mod max -> a = b.
Proof.
  intros. assert ((a - b) mod max = 0).
  { rewrite Zminus_mod, H2, Z.sub_diag. apply Z.mod_0_l. lia. }
  apply Z.mod_divide in H3; [|lia]. destruct H3 as [k Hk]. assert (k = 0); [|lia]. assert (-1 < k) by nia. assert (k < 1) by nia. lia.
Qed.

Lemma slot_keys_nodup : forall max c l, 1 <= max ->
  NoDup (map fst l) -> Forall (fun p : Z * option nat => c - max <= fst p < c) l ->
  NoDup (map fst (map (slot max) l)).
Proof.
  induction l as [|p l IH]; simpl; intros; [constructor|].
  inversion H0; subst. inversion H1; subst. constructor; auto.
  intro Hin. apply in_map_iff in Hin as [x [Hx Hin]]. apply in_map_iff in Hin as [z [Hz Hin]]. subst.
  unfold slot in Hx; simpl in Hx. rewrite Forall_forall in H7. specialize (H7 z Hin). simpl in H7.
  assert (fst z = fst p) by (eapply residues_distinct; eauto).
  apply H4. rewrite <- H2. apply in_map; auto.
Qed.

Lemma map_drop_nth : forall A B (f : A -> B) j l, map f (drop_nth j l) = drop_nth j (map f l).
Proof.
  intros. unfold drop_nth. rewrite map_app, firstn_map, skipn_map. reflexivity.
Qed.

Lemma drop_nth_in : forall A j (l : list A) x, In x (drop_nth j l) -> In x l.
Proof.
  intros. unfold drop_nth in H. apply in_app_or in H as [H|H].
  - rewrite <- (firstn_skipn j l). apply in_or_app; auto.
  - rewrite <- (firstn_skipn (S j) l). apply in_or_app; auto.
Qed.

Lemma drop_nth_nodup : forall A j (l : list A), NoDup l -> NoDup (drop_nth j l).
Proof.
  induction j; intros; destruct l; unfold drop_nth; simpl; auto.
  - inversion H; auto.
  - inversion H; subst. constructor.
    + intro. apply H2. apply (drop_nth_in _ j). exact H0.
    + apply IHj; auto.
Qed.

Lemma link_step : forall max y q ev, 1 <= max -> linked max y q ->
  (match ev with
   | USend _ _ => zlen (i_flight q) < max -> Forall (fun p => i_count q - max < fst p) (i_flight q)
   | UDone _ _ => True
   end) ->
  linked max (fst (system_do y ev)) (fst (ideal_do max q ev)) /\
  snd (system_do y ev) = snd (ideal_do max q ev).
Proof.
  intros max y q ev Hmax L Htim.
  destruct L as [Hm [Hpi [Hfl [Hpe [Hnd Hrg]]]]].
  destruct ev as [cb os|j rp]; simpl.
  - unfold next_packet_index. 
    assert (Hzl : zlen (pending (s_ex y)) = zlen (i_flight q)) by (unfold zlen; rewrite Hpe, map_length; auto).
    rewrite Hm, Hzl.
    destruct (max <=? zlen (i_flight q)) eqn:E.
    + simpl. split; [|auto]. exact (conj Hm (conj Hpi (conj Hfl (conj Hpe (conj Hnd Hrg))))).
    + apply Z.leb_gt in E. specialize (Htim E).
      assert (Hfree : dict_get (i_count q mod max) (map (slot max) (i_flight q)) = None).
      { apply dict_get_notin. intro Hin. apply in_map_iff in Hin as [x [Hx Hin]].
        apply in_map_iff in Hin as [z [Hz Hin]]. subst x. unfold slot in Hx; simpl in Hx.
        rewrite Forall_forall in Htim. specialize (Htim z Hin).
        rewrite Forall_forall in Hrg. specialize (Hrg z Hin).
        assert (fst z = i_count q) by (apply (residues_distinct max _ _ (i_count q + 1)); auto; lia). lia. }
      assert (Hidx : (i_count q mod max + 1) mod max = (i_count q + 1) mod max)
        by (rewrite Zplus_mod_idemp_l; auto).
      assert (Hrg' : Forall (fun p => i_count q + 1 - max <= fst p < i_count q + 1) (i_flight q)).
      { rewrite Forall_forall in *. intros z Hz. specialize (Htim z Hz). specialize (Hrg z Hz). lia. }
      destruct os as [u|e]; simpl; rewrite Hpi, Hpe.
      * split; [|auto]. unfold linked; simpl. split; [auto|]. split; [auto|]. split.
        { rewrite Hfl, map_app. reflexivity. }
        split. { rewrite dict_get_none_set by auto. rewrite map_app. reflexivity. }
        split.
        { rewrite map_app; simpl. apply Permutation_NoDup with (i_count q :: map fst (i_flight q)).
          apply Permutation_cons_append. constructor; auto. intro Hin.
          apply in_map_iff in Hin as [z [Hz Hin]].
          rewrite Forall_forall in Hrg. specialize (Hrg z Hin). lia. }
        { apply Forall_app. split; auto. constructor; [simpl; lia|constructor]. }
      * unfold send_abort; simpl. rewrite dict_get_set_eq. simpl. split; [|auto].
        unfold linked; simpl. split; [auto|]. split; [auto|]. split; [auto|].
        split. { rewrite dict_del_set; auto. }
        auto.
  - rewrite Hfl. rewrite nth_error_map. destruct (nth_error (i_flight q) j) as [[n cb]|] eqn:E; simpl.
    2:{ split; auto. exact (conj Hm (conj Hpi (conj Hfl (conj Hpe (conj Hnd Hrg))))). }
    assert (Hkn : NoDup (map fst (map (slot max) (i_flight q)))) by (eapply slot_keys_nodup; eauto).
    assert (Hn : nth_error (map (slot max) (i_flight q)) j = Some (n mod max, (tt, cb)))
      by (rewrite nth_error_map, E; reflexivity).
    destruct (dict_del_nth j _ _ _ Hkn Hn) as [Hg Hd].
    unfold complete. rewrite Hpe, Hg.
    assert (Lk : forall log, linked max
       (System (Executer (dict_del (n mod max) (pending (s_ex y))) (packet_index (s_ex y))
          (max_queue_size (s_ex y)) log tt)
          (drop_nth j (map (fun p => fst p mod max) (i_flight q))))
       (Ideal (drop_nth j (i_flight q)) (i_count q))).
    { intros log. unfold linked; simpl. rewrite Hpe, Hd. split; [auto|]. split; [auto|].
      split. { rewrite map_drop_nth; auto. }
      split. { rewrite map_drop_nth; auto. }
      split. { rewrite map_drop_nth. apply drop_nth_nodup; auto. }
      rewrite Forall_forall in *. intros z Hz. apply Hrg. eapply drop_nth_in; eauto. }
    destruct cb as [k|]; simpl; rewrite ?Hpe, ?Hd.
    + split; auto. specialize (Lk (cb_log (s_ex y) ++ [(k, rp)])). rewrite Hpe, Hd in Lk.
      destruct (world (s_ex y)). exact Lk.
    + split; auto. specialize (Lk (cb_log (s_ex y))). rewrite Hpe, Hd in Lk.
      destruct (world (s_ex y)). exact Lk.
Qed.

Lemma link_run : forall max h y q, 1 <= max -> linked max y q -> timely_from max q h ->
  snd (system_run y h) = snd (ideal_run max q h) /\
  linked max (fst (system_run y h)) (fst (ideal_run max q h)).
Proof.
  induction h as [|ev h IH]; simpl; intros y q Hmax L Ht; auto. destruct Ht as [H1 H2].
  destruct (link_step max y q ev Hmax L H1) as [L' Ho].
  destruct (system_do y ev) as [y1 o1]. destruct (ideal_do max q ev) as [q1 o2]. simpl in *.
  destruct (IH y1 q1 Hmax L' H2) as [IH1 IH2].
  destruct (system_run y1 h) as [y2 os1]. destruct (ideal_run max q1 h) as [q2 os2]. simpl in *.
  split; [congruence|auto].
Qed.

Lemma link_init : forall max, 1 <= max -> linked max (system_init max) ideal_init.
Proof.
  intros. unfold linked, system_init, ideal_init, executer_init; simpl.
  rewrite Z.mod_0_l by lia. repeat split; auto; constructor.
Qed.

Theorem timely_routing : forall max h, 1 <= max -> timely max h ->
  observed max h = expected max h /\ observed_waiting max h = expected_waiting max h.
Proof.
  intros. unfold observed, expected, observed_waiting, expected_waiting.
  destruct (link_run max h (system_init max) ideal_init H (link_init max H) H0) as [H1 L].
  split; auto. destruct L as [_ [_ [_ [Hp _]]]]. rewrite Hp, map_map.
  apply map_ext. intros [n cb]. reflexivity.
Qed.

(** *** In-order histories are timely: the commands in flight are consecutive. *)
Definition consecutive (q : ideal) : Prop :=
  map fst (i_flight q) = map (fun k => i_count q - zlen (i_flight q) + Z.of_nat k) (seq 0 (length (i_flight q))).

Lemma in_order_timely_from : forall max h q, 1 <= max -> in_order h -> consecutive q ->
  timely_from max q h.
Proof.
  induction h as [|ev h IH]; simpl; intros q Hmax Ho Hc; auto.
  inversion Ho; subst. split.
  - destruct ev; auto. intros Hlt. rewrite Forall_forall. intros z Hz.
    assert (Hin : In (fst z) (map fst (i_flight q))) by (apply in_map; auto).
    rewrite Hc in Hin. apply in_map_iff in Hin as [k [Hk Hin]]. apply in_seq in Hin. lia.
  - apply IH; auto. unfold consecutive in *. destruct ev as [cb [u|e]|j rp]; simpl in *.
    + destruct (max <=? zlen (i_flight q)); simpl; auto.
      rewrite map_app, Hc. simpl. rewrite app_length; simpl.
      rewrite seq_app, map_app. simpl. f_equal.
      * apply map_ext. intros. unfold zlen. rewrite app_length; simpl. lia.
      * f_equal. unfold zlen. rewrite app_length; simpl. lia.
    + contradiction.
    + subst. destruct (i_flight q) as [|[n cb] l] eqn:E; simpl in *; [rewrite E; auto|].
      injection Hc as Hn Hl.
      unfold drop_nth; simpl. rewrite Hl. rewrite <- seq_shift, map_map.
      apply map_ext. intros. unfold zlen; simpl length. lia.
Qed.

Theorem in_order_timely : forall max h, 1 <= max -> in_order h -> timely max h.
Proof. intros. apply in_order_timely_from; auto. reflexivity. Qed.

Theorem single_slot_timely : forall h, timely 1 h.
Proof.
  unfold timely. intros h. generalize ideal_init. induction h as [|ev h IH]; simpl; intros; auto.
  split; auto. destruct ev; auto. intros. destruct (i_flight i); [constructor|].
  unfold zlen in H; simpl length in H. lia.
Qed.

Theorem one_at_a_time_timely : forall max h, one_at_a_time max h -> timely max h.
Proof.
  unfold timely, one_at_a_time. intros max h. generalize ideal_init.
  induction h as [|ev h IH]; simpl; intros; auto.
  destruct H. split; auto. destruct ev; auto. intros. rewrite H. constructor.
Qed.

(** *** The bad history *)
Fixpoint busy (n : nat) (b : nat) (rp : resp) : list sys_event :=
  match n with
  | O => []
  | S m => USend (Some b) (Ok tt) :: UDone 1 rp :: busy m b rp
  end.

(** One command stays in flight, [max - 1] others come and go, then one more is sent
    and the first one completes. *)
Definition crossing_history (max : Z) (a b c : nat) (rp : resp) : list sys_event :=
  USend (Some a) (Ok tt) :: busy (Z.to_nat (max - 1)) b rp
    ++ [USend (Some c) (Ok tt); UDone 0 rp; UDone 0 rp].

Definition busy_obs (n b : nat) (rp : resp) : list sys_obs :=
  concat (repeat [SSent; SCalled b rp] n).

Lemma system_run_app : forall h1 h2 y,
  system_run y (h1 ++ h2) =
  let (y1, o1) := system_run y h1 in let (y2, o2) := system_run y1 h2 in (y2, o1 ++ o2).
Proof.
  induction h1; simpl; intros.
  - destruct (system_run y h2); auto.
  - destruct (system_do y a). rewrite IHh1. destruct (system_run s h1).
    destruct (system_run s1 h2). auto.
Qed.

Lemma ideal_run_app : forall max h1 h2 q,
  ideal_run max q (h1 ++ h2) =
  let (y1, o1) := ideal_run max q h1 in let (y2, o2) := ideal_run max y1 h2 in (y2, o1 ++ o2).
Proof.
  induction h1; simpl; intros.
  - destruct (ideal_run max q h2); auto.
  - destruct (ideal_do max q a). rewrite IHh1. destruct (ideal_run max i h1).
    destruct (ideal_run max i0 h2). auto.
Qed.

Lemma busy_system : forall max a b rp n i log, 2 <= max -> 1 <= i -> i + Z.of_nat n <= max ->
  exists log',
  system_run (System (Executer [(0, (tt, Some a))] (i mod max) max log tt) [0]) (busy n b rp)
  = (System (Executer [(0, (tt, Some a))] ((i + Z.of_nat n) mod max) max log' tt) [0], busy_obs n b rp).
Proof.
  induction n; intros i log Hmax Hi Hn.
  - exists log. simpl. replace (i + 0) with i by lia. auto.
  - simpl busy. cbn [system_run system_do].
    assert (i mod max = i) by (apply Z.mod_small; lia).
    cbn [s_ex ex_do]. unfold next_packet_index. cbn [max_queue_size pending zlen length packet_index].
    replace (max <=? zlen [(0, (tt, Some a))]) with false
      by (symmetry; apply Z.leb_gt; unfold zlen; simpl; lia).
    rewrite H. assert (Hne : (0 =? i) = false) by (apply Z.eqb_neq; lia).
    unfold complete, with_pending, with_index, with_log.
    do 6 (cbn [pending packet_index max_queue_size cb_log world dict_set dict_get dict_del
               s_flight s_ex app nth_error ex_do]; rewrite ?Hne, ?Z.eqb_refl).
    unfold drop_nth. cbn [firstn skipn app].
    destruct (IHn (i + 1) (log ++ [(b, rp)]) Hmax ltac:(lia) ltac:(lia)) as [log' HI].
    exists log'. rewrite HI. unfold busy_obs. simpl.
    replace (i + 1 + Z.of_nat n) with (i + Z.pos (Pos.of_succ_nat n)) by lia. reflexivity.
Qed.

Lemma busy_ideal : forall max a b rp n i, 2 <= max ->
  ideal_run max (Ideal [(0, Some a)] i) (busy n b rp)
  = (Ideal [(0, Some a)] (i + Z.of_nat n), busy_obs n b rp).
Proof.
  induction n; intros i Hmax.
  - simpl. replace (i + 0) with i by lia. auto.
  - simpl busy. cbn [ideal_run ideal_do i_flight].
    replace (max <=? zlen [(0, Some a)]) with false
      by (symmetry; apply Z.leb_gt; unfold zlen; simpl; lia).
    cbn [i_flight app nth_error i_count].
    unfold drop_nth. cbn [firstn skipn app]. rewrite IHn by auto. unfold busy_obs. simpl.
    replace (i + 1 + Z.of_nat n) with (i + Z.pos (Pos.of_succ_nat n)) by lia. reflexivity.
Qed.

Theorem crossing : forall max a b c rp, 2 <= max ->
  observed max (crossing_history max a b c rp) =
    SSent :: busy_obs (Z.to_nat (max - 1)) b rp ++ [SSent; SCalled c rp; SLost] /\
  expected max (crossing_history max a b c rp) =
    SSent :: busy_obs (Z.to_nat (max - 1)) b rp ++ [SSent; SCalled a rp; SCalled c rp].
Proof.
  intros. unfold observed, expected, crossing_history. split.
  - unfold system_init, executer_init.
    cbn [system_run system_do s_ex ex_do]. unfold next_packet_index.
    cbn [max_queue_size pending].
    replace (max <=? zlen (@nil (Z * (unit * option nat)))) with false
      by (symmetry; apply Z.leb_gt; unfold zlen; simpl; lia).
    cbn [with_pending with_index pending dict_set packet_index max_queue_size cb_log world s_flight].
    change ([] ++ [0]) with [0].
    unfold with_pending, with_index. cbn [pending dict_set packet_index max_queue_size cb_log world].
    change ((0 + 1) mod max) with (1 mod max).
    rewrite system_run_app.
    destruct (busy_system max a b rp (Z.to_nat (max - 1)) 1 [] H ltac:(lia) ltac:(lia)) as [log' HB].
    rewrite HB.
    replace (1 + Z.of_nat (Z.to_nat (max - 1))) with max by lia. rewrite Z.mod_same by lia.
    cbn [system_run system_do s_ex ex_do]. unfold next_packet_index.
    cbn [max_queue_size pending packet_index].
    replace (max <=? zlen [(0, (tt, Some a))]) with false
      by (symmetry; apply Z.leb_gt; unfold zlen; simpl; lia).
    cbn. reflexivity.
  - cbn [ideal_run ideal_do ideal_init i_flight].
    replace (max <=? zlen (@nil (Z * option nat))) with false
      by (symmetry; apply Z.leb_gt; unfold zlen; simpl; lia).
    cbn [i_flight app i_count].
    rewrite ideal_run_app, busy_ideal by auto. cbn [ideal_run ideal_do i_flight].
    replace (max <=? zlen [(0, Some a)]) with false
      by (symmetry; apply Z.leb_gt; unfold zlen; simpl; lia).
    cbn. reflexivity.
Qed.
