(** Routing is correct for exactly the timely histories. *)
From Coq Require Import ZArith List Bool Lia Permutation.
From Verif Require Import Base BaseFacts Executer SpecExec ExecFacts.
Import ListNotations.
Open Scope Z_scope.

Lemma timely_step_dec : forall max q (ev : sys_event),
  let P := (match ev with
   | USend _ _ => zlen (i_flight q) < max -> Forall (fun p => i_count q - max < fst p) (i_flight q)
   | UDone _ _ => True
   end) in P \/ exists cb os p, ev = USend cb os /\ zlen (i_flight q) < max /\
      In p (i_flight q) /\ fst p <= i_count q - max.
Proof.
  intros max q ev P. destruct ev as [cb os|j rp]; [|left; exact I]. simpl in P.
  destruct (Z_lt_dec (zlen (i_flight q)) max) as [Hl|Hl]; [|left; intro; contradiction].
  destruct (Forall_Exists_dec (fun p : Z * option nat => i_count q - max < fst p)
     (fun p => Z_lt_dec _ _) (i_flight q)) as [H|H].
  - left. intro. exact H.
  - right. apply Exists_exists in H as [p [Hin Hp]]. exists cb, os, p. repeat split; auto. lia.
Qed.

Lemma system_run_app_obs : forall h1 h2 y,
  snd (system_run y (h1 ++ h2)) = snd (system_run y h1) ++ snd (system_run (fst (system_run y h1)) h2).
Proof.
  intros. rewrite system_run_app. destruct (system_run y h1). simpl. destruct (system_run s h2). reflexivity.
Qed.
Lemma ideal_run_app_obs : forall max h1 h2 q,
  snd (ideal_run max q (h1 ++ h2)) = snd (ideal_run max q h1) ++ snd (ideal_run max (fst (ideal_run max q h1)) h2).
Proof.
  intros. rewrite ideal_run_app. destruct (ideal_run max q h1). simpl. destruct (ideal_run max i h2). reflexivity.
Qed.

Lemma ideal_never_lost : forall max q ev, snd (ideal_do max q ev) <> SLost.
Proof.
  intros max q [cb [u|e]|j rp]; simpl.
  - destruct (max <=? zlen (i_flight q)); simpl; discriminate.
  - destruct (max <=? zlen (i_flight q)); simpl; discriminate.
  - destruct (nth_error (i_flight q) j) as [[n [k|]]|]; simpl; discriminate.
Qed.

Lemma ideal_run_never_lost : forall max h q, ~ In SLost (snd (ideal_run max q h)).
Proof.
  induction h as [|ev h IH]; simpl; intros q Hin; auto.
  pose proof (ideal_never_lost max q ev).
  destruct (ideal_do max q ev) as [q1 o]. specialize (IH q1).
  destruct (ideal_run max q1 h) as [q2 os]. simpl in *. destruct Hin; auto.
Qed.

Lemma dict_set_in_place : forall A k (v : A) d x, dict_get k d = Some x ->
  map fst (dict_set k v d) = map fst d.
Proof.
  induction d as [|[i w] r IH]; simpl; intros x H; [discriminate|].
  destruct (Z.eqb_spec i k); simpl; [reflexivity|]. f_equal. eapply IH; eauto.
Qed.

(** A send whose index is taken loses a command. *)
Lemma collision_loses : forall max y q cb os p, 1 <= max -> linked max y q ->
  zlen (i_flight q) < max -> In p (i_flight q) -> fst p <= i_count q - max ->
  exists ext, In SLost (snd (system_run y (USend cb os :: ext))).
Proof.
  intros max y q cb os p Hmax L Hlen Hin Hp.
  destruct L as [Hm [Hpi [Hfl [Hpe [Hnd Hrg]]]]].
  assert (Hp' : fst p = i_count q - max).
  { rewrite Forall_forall in Hrg. specialize (Hrg p Hin). simpl in Hrg. lia. }
  assert (Hidx : fst p mod max = i_count q mod max).
  { rewrite Hp'. replace (i_count q - max) with (i_count q + (-1) * max) by lia.
    apply Z_mod_plus_full. }
  destruct (In_nth_error _ _ Hin) as [j Hj].
  assert (Hkn : NoDup (map fst (map (slot max) (i_flight q)))) by (eapply slot_keys_nodup; eauto).
  assert (Hn : nth_error (map (slot max) (i_flight q)) j = Some (i_count q mod max, (tt, snd p))).
  { rewrite nth_error_map, Hj. simpl. unfold slot. rewrite Hidx. reflexivity. }
  destruct (dict_del_nth j _ _ _ Hkn Hn) as [Hg Hd].
  assert (Hzl : zlen (pending (s_ex y)) = zlen (i_flight q)) by (unfold zlen; rewrite Hpe, map_length; auto).
  assert (Hfj : nth_error (s_flight y) j = Some (i_count q mod max)).
  { rewrite Hfl, nth_error_map, Hj. simpl. rewrite Hidx. reflexivity. }
  assert (Hjl : (j < length (s_flight y))%nat) by (apply nth_error_Some; congruence).
  destruct os as [u|e].
  - exists [UDone j (RespData None); UDone (length (s_flight y) - 1) (RespData None)].
    cbn [system_run system_do]. cbn [ex_do]. unfold next_packet_index. rewrite Hm, Hzl.
    destruct (Z.leb_spec max (zlen (i_flight q))); [lia|].
    cbn [s_flight s_ex pending with_pending with_index]. rewrite Hpi, Hpe.
    rewrite nth_error_app1 by auto. rewrite Hfj.
    unfold complete. cbn [pending with_pending with_index]. rewrite dict_get_set_eq.
    assert (Hlast : nth_error (drop_nth j (s_flight y ++ [i_count q mod max])) (length (s_flight y) - 1)
       = Some (i_count q mod max)).
    { unfold drop_nth.
      assert (Hfl2 : length (firstn j (s_flight y ++ [i_count q mod max])) = j)
        by (apply firstn_length_le; rewrite app_length; lia).
      rewrite nth_error_app2 by lia. rewrite Hfl2.
      assert (Hsk : forall (A : Type) n k (l : list A), nth_error (skipn n l) k = nth_error l (n + k)).
      { induction n; intros; destruct l; simpl; auto. destruct k; auto. }
      rewrite Hsk. replace (S j + (length (s_flight y) - 1 - j))%nat with (length (s_flight y)) by lia.
      rewrite nth_error_app2, Nat.sub_diag by lia. reflexivity. }
    assert (Hgone : dict_get (i_count q mod max)
       (dict_del (i_count q mod max) (dict_set (i_count q mod max) (tt, cb) (map (slot max) (i_flight q)))) = None).
    { apply dict_get_del_eq. apply dict_set_keys; auto. }
    destruct cb as [k|]; cbn -[dict_set dict_get dict_del drop_nth];
      rewrite Hlast; cbn -[dict_set dict_get dict_del drop_nth];
      rewrite Hgone; cbn -[dict_set dict_get dict_del drop_nth]; auto.
  - exists [UDone j (RespData None)].
    cbn [system_run system_do]. cbn [ex_do]. unfold next_packet_index. rewrite Hm, Hzl.
    destruct (Z.leb_spec max (zlen (i_flight q))); [lia|].
    unfold send_abort. cbn [pending with_pending with_index]. rewrite Hpi, Hpe, dict_get_set_eq.
    cbn [s_flight s_ex]. rewrite Hfj. unfold complete. cbn [pending with_pending with_index].
    rewrite dict_get_del_eq by (apply dict_set_keys; auto).
    cbn. auto.
Qed.

Lemma untimely_from : forall max h y q, 1 <= max -> linked max y q ->
  timely_from max q h \/
  exists h1 h2 ext, h = h1 ++ h2 /\ In SLost (snd (system_run y (h1 ++ ext))).
Proof.
  induction h as [|ev h IH]; simpl; intros y q Hmax L; [left; exact I|].
  destruct (timely_step_dec max q ev) as [H|[cb [os [p [-> [H1 [H2 H3]]]]]]].
  - destruct (link_step max y q ev Hmax L H) as [L' Ho].
    destruct (IH _ _ Hmax L') as [H'|[h1 [h2 [ext [-> Hin]]]]]; [left; auto|].
    right. exists (ev :: h1), h2, ext. split; [reflexivity|]. simpl.
    destruct (system_do y ev) as [y1 o]. simpl in *.
    destruct (system_run y1 (h1 ++ ext)) as [y2 ob]. simpl in *. auto.
  - right. destruct (collision_loses max y q cb os p Hmax L H1 H2 H3) as [ext Hin].
    exists [USend cb os], h, ext. split; [reflexivity|]. exact Hin.
Qed.

Theorem untimely_loses : forall max h, 1 <= max -> ~ timely max h ->
  exists h1 h2 ext, h = h1 ++ h2 /\
    In SLost (observed max (h1 ++ ext)) /\ ~ In SLost (expected max (h1 ++ ext)).
Proof.
  intros max h Hmax Hn. unfold timely in Hn.
  destruct (untimely_from max h (system_init max) ideal_init Hmax (link_init max Hmax)) as [H|[h1 [h2 [ext [E Hin]]]]].
  - contradiction.
  - exists h1, h2, ext. split; auto. split; [exact Hin|]. apply ideal_run_never_lost.
Qed.
