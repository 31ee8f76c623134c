(** Facts for C120: what is sent in the control byte. *)
From Coq Require Import String ZArith List Bool Lia.
From Verif Require Import Base OsCommon Instruct Command SpecDevice SpecCdb SpecSettings SettingsFacts Controls SpecControl.
Import ListNotations.
Local Open Scope string_scope.
Local Open Scope Z_scope.
Local Open Scope list_scope.

(** * Lists *)
Lemma put_at_length : forall X (l : list X) k x, length (put_at k x l) = length l.
Proof. induction l; intros [|k] x; simpl; auto. Qed.
Lemma put_at_same : forall X (l : list X) k x, (k < length l)%nat -> nth_error (put_at k x l) k = Some x.
Proof. induction l; intros [|k] x; simpl; intros; try lia; auto. apply IHl. lia. Qed.
Lemma put_at_other : forall X (l : list X) k j x, k <> j -> nth_error (put_at k x l) j = nth_error l j.
Proof. induction l; intros [|k] [|j] x; simpl; intros; auto; try congruence. Qed.
Lemma put_at_nth_same : forall X (l : list X) k x d, (k < length l)%nat -> nth k (put_at k x l) d = x.
Proof. induction l; intros [|k] x d; simpl; intros; try lia; auto. apply IHl. lia. Qed.
Lemma put_at_nth_other : forall X (l : list X) k j x d, k <> j -> nth j (put_at k x l) d = nth j l d.
Proof. induction l; intros [|k] [|j] x d; simpl; intros; auto; try congruence. Qed.
Lemma put_at_fst : forall (l : list (command * nat)) k c n n', nth_error l k = Some (c, n) ->
  map fst (put_at k (c, n') l) = map fst l.
Proof. induction l; intros [|k] c n n' H; simpl in *; try discriminate; f_equal; eauto. injection H as ->. reflexivity. Qed.

(** * What is set fits *)
Definition pair_fits (p : Z * Z) : Prop := 0 <= fst p < 2 /\ 0 <= snd p < 4.
Lemma assigned_fits : forall w x p, fits w x -> pair_fits p -> pair_fits (assigned w x p).
Proof. intros [] x p; unfold pair_fits; simpl; tauto. Qed.
Lemma set_in_fits : forall past k, sensible past -> pair_fits (set_in k past).
Proof.
  induction past as [|[c|j w x|j n v|j] past IH]; simpl; intros k H.
  - unfold pair_fits; simpl; lia.
  - apply IH, H.
  - destruct H as [F [_ H]]. destruct (Nat.eqb j k); auto using assigned_fits.
  - destruct H as [F [G [_ H]]]. destruct (Nat.eqb j k); auto. split; assumption.
  - apply IH, H.
Qed.
Lemma set_in_any_fits : forall past f, sensible past -> pair_fits (set_in_any f past).
Proof.
  induction past as [|[c|j w x|j n v|j] past IH]; simpl; intros f H.
  - unfold pair_fits; simpl; lia.
  - apply IH, H.
  - destruct H as [F [_ H]]. destruct (on_default f j past); auto using assigned_fits.
  - apply IH, H.
  - apply IH, H.
Qed.

(** * Commands that are not there yet *)
Lemma can_set_below : forall k past, can_set k past -> (k < length (made past))%nat.
Proof. intros k past [c [H _]]. apply nth_error_Some. congruence. Qed.
Lemma made_grows : forall a past, (length (made past) <= length (made (a :: past)))%nat.
Proof. intros [] past; simpl; rewrite ?app_length; simpl; lia. Qed.
Lemma not_yet : forall past k, sensible past -> (length (made past) <= k)%nat ->
  set_in k past = (0, 0) /\ has_own k past = false.
Proof.
  induction past as [|a past IH]; intros k H L; [auto|].
  pose proof (made_grows a past) as G.
  destruct a as [c|j w x|j n v|j]; simpl in *.
  - apply IH; [apply H|lia].
  - destruct H as [_ [C H]]. apply can_set_below in C.
    replace (Nat.eqb j k) with false by (symmetry; apply Nat.eqb_neq; lia). apply IH; [exact H|lia].
  - destruct H as [_ [_ [C H]]]. apply can_set_below in C.
    replace (Nat.eqb j k) with false by (symmetry; apply Nat.eqb_neq; lia). apply IH; [exact H|lia].
  - apply IH; [apply H|lia].
Qed.

Lemma takes_not_fixed : forall c, takes_control c -> control_is_fixed c = false.
Proof. intros []; simpl; tauto. Qed.
Lemma fixed_not_takes : forall c, control_is_fixed c = false -> match c with ReceiveCopy _ => False | _ => True end -> takes_control c.
Proof. intros []; simpl; try discriminate; tauto. Qed.
Lemma default_below : forall f, (default_number f < 2)%nat.
Proof. intros []; simpl; lia. Qed.
Lemma same_family_refl : forall f, same_family f f = true.
Proof. intros []; reflexivity. Qed.
Lemma same_family_eq : forall f g, same_family f g = true -> f = g.
Proof. intros [] []; simpl; congruence. Qed.
Lemma default_number_inj : forall f g, default_number f = default_number g -> f = g.
Proof. intros [] []; simpl; congruence. Qed.

Section Copies.
Context (copies : family -> bool).

(** Command [k] alone refers to its control object. *)
Definition owns (past : list action) (k : nat) (c : command) : bool := has_own k past || copies (kind c).

Record inv (past : list action) (m : memory) : Prop := Inv {
  inv_made : map fst (commands m) = made past;
  inv_two : (2 <= length (controls m))%nat;
  inv_default : forall f, nth (default_number f) (controls m) (0, 0) = if copies f then (0, 0) else set_in_any f past;
  inv_there : forall k c n, nth_error (commands m) k = Some (c, n) -> (n < length (controls m))%nat;
  inv_own : forall k c n, nth_error (commands m) k = Some (c, n) -> control_is_fixed c = false -> owns past k c = true ->
    (2 <= n)%nat /\ nth n (controls m) (0, 0) = set_in k past;
  inv_shared : forall k c n, nth_error (commands m) k = Some (c, n) -> control_is_fixed c = false -> owns past k c = false ->
    n = default_number (kind c);
  inv_apart : forall k j c d n, nth_error (commands m) k = Some (c, n) -> nth_error (commands m) j = Some (d, n) ->
    control_is_fixed c = false -> control_is_fixed d = false -> owns past k c = true -> k = j
}.

Lemma inv_nth : forall past m k c, inv past m -> nth_error (made past) k = Some c ->
  exists n, nth_error (commands m) k = Some (c, n).
Proof.
  intros past m k c I H. rewrite <- (inv_made _ _ I), nth_error_map in H.
  destruct (nth_error (commands m) k) as [[c' n]|]; simpl in H; [|discriminate]. injection H as ->. eauto.
Qed.
Lemma inv_length : forall past m, inv past m -> length (commands m) = length (made past).
Proof. intros past m I. rewrite <- (inv_made _ _ I), map_length. reflexivity. Qed.

Lemma start_inv : inv [] imported.
Proof.
  constructor; cbn [commands controls imported map made length]; try (intros [|k]; intros; discriminate); auto.
  intros []; simpl; destruct (copies _); reflexivity.
Qed.

(** The default as a new object gets it. *)
Lemma take_default_spec : forall past m f cs n, inv past m -> take_default copies f (controls m) = (cs, n) ->
  (length (controls m) <= length cs)%nat /\ (forall i, (i < length (controls m))%nat -> nth i cs (0, 0) = nth i (controls m) (0, 0)) /\
  (n < length cs)%nat /\
  (if copies f then n = length (controls m) /\ nth n cs (0, 0) = (0, 0)
   else n = default_number f /\ nth n cs (0, 0) = set_in_any f past).
Proof.
  intros past m f cs n I H. unfold take_default in H. pose proof (inv_default _ _ I f) as D. pose proof (inv_two _ _ I) as L.
  pose proof (default_below f) as B.
  destruct (copies f) eqn:C; injection H as <- <-.
  - rewrite app_length; simpl. repeat split; try lia.
    + intros i Li. rewrite app_nth1 by lia. reflexivity.
    + rewrite app_nth2, Nat.sub_diag by lia. simpl. exact D.
  - repeat split; auto; lia.
Qed.

Lemma make_inv : forall past m c, sensible past -> inv past m -> inv (Make c :: past) (fst (act copies (Make c) m)).
Proof.
  intros past m c SP I. unfold act; change family_of with kind; change sets_before_pack with control_is_fixed; change put_part with assigned. destruct (take_default copies (kind c) (controls m)) as [cs n] eqn:T.
  destruct (take_default_spec past m _ _ _ I T) as [L1 [L2 [L3 L4]]]. simpl.
  pose proof (inv_two _ _ I) as TW. pose proof (inv_length _ _ I) as LEN.
  assert (N : set_in (length (commands m)) past = (0, 0) /\ has_own (length (commands m)) past = false) by (apply not_yet; auto; lia).
  destruct N as [N1 N2].
  assert (SPLIT : forall k d i, nth_error (commands m ++ [(c, n)]) k = Some (d, i) ->
    nth_error (commands m) k = Some (d, i) \/ (k = length (commands m) /\ d = c /\ i = n)).
  { intros k d i H. destruct (Nat.lt_ge_cases k (length (commands m))) as [Lk|Lk].
    - rewrite nth_error_app1 in H by lia. auto.
    - rewrite nth_error_app2 in H by lia. destruct (k - length (commands m))%nat as [|q] eqn:E; simpl in H.
      + injection H as <- <-. right. repeat split; lia.
      + destruct q; discriminate. }
  assert (BELOW : forall k d i, nth_error (commands m) k = Some (d, i) -> (k < length (commands m))%nat)
    by (intros k d i H; apply nth_error_Some; congruence).
  constructor; simpl.
  - rewrite map_app, (inv_made _ _ I). reflexivity.
  - lia.
  - intros f. rewrite L2 by (pose proof (default_below f); lia). apply (inv_default _ _ I).
  - intros k d i H. destruct (SPLIT _ _ _ H) as [H'|[-> [-> ->]]]; [|lia]. pose proof (inv_there _ _ I _ _ _ H'). lia.
  - intros k d i H F O. destruct (SPLIT _ _ _ H) as [H'|[-> [-> ->]]].
    + rewrite L2 by (exact (inv_there _ _ I _ _ _ H')). exact (inv_own _ _ I _ _ _ H' F O).
    + change (owns past (length (commands m)) c = true) in O. unfold owns in O. rewrite N2 in O. simpl in O.
      change (has_own (length (commands m)) past) with (has_own (length (commands m)) past) in *. rewrite O in L4.
      destruct L4 as [-> L4]. split; [lia|congruence].
  - intros k d i H F O. destruct (SPLIT _ _ _ H) as [H'|[-> [-> ->]]].
    + exact (inv_shared _ _ I _ _ _ H' F O).
    + change (owns past (length (commands m)) c = false) in O. unfold owns in O. rewrite N2 in O. simpl in O.
      rewrite O in L4. apply L4.
  - intros k j d e i H J F G O. change (owns past k d = true) in O.
    destruct (SPLIT _ _ _ H) as [H'|[-> [-> ->]]]; destruct (SPLIT _ _ _ J) as [J'|[-> [-> E]]]; auto.
    + exact (inv_apart _ _ I _ _ _ _ _ H' J' F G O).
    + subst i. pose proof (inv_there _ _ I _ _ _ H') as Li. destruct (inv_own _ _ I _ _ _ H' F O) as [G2 _].
      destruct (copies (kind c)); [lia|]. pose proof (default_below (kind c)). lia.
    + pose proof (inv_there _ _ I _ _ _ J') as Li. unfold owns in O. rewrite N2 in O. simpl in O. rewrite O in L4. lia.
Qed.

Lemma set_inv : forall past m k w x, can_set k past -> inv past m ->
  inv (SetPart k w x :: past) (fst (act copies (SetPart k w x) m)).
Proof.
  intros past m k w x [c [C TC]] I. destruct (inv_nth _ _ _ _ I C) as [n H]. simpl. rewrite H. simpl.
  pose proof (takes_not_fixed _ TC) as F. pose proof (inv_there _ _ I _ _ _ H) as Ln.
  assert (OD : forall f, on_default f k past = same_family f (kind c) && negb (has_own k past))
    by (intros f; unfold on_default; rewrite C; reflexivity).
  constructor; simpl.
  - apply (inv_made _ _ I).
  - rewrite put_at_length. apply (inv_two _ _ I).
  - intros f. rewrite OD. destruct (owns past k c) eqn:O.
    + destruct (inv_own _ _ I _ _ _ H F O) as [G _]. rewrite put_at_nth_other by (pose proof (default_below f); lia).
      rewrite (inv_default _ _ I). destruct (copies f) eqn:CF; [reflexivity|].
      destruct (same_family f (kind c)) eqn:SF; [|reflexivity]. apply same_family_eq in SF. subst f.
      unfold owns in O. rewrite CF, orb_false_r in O. rewrite O. reflexivity.
    + pose proof (inv_shared _ _ I _ _ _ H F O) as E. subst n. unfold owns in O. apply orb_false_iff in O. destruct O as [O1 O2].
      rewrite O1. simpl. rewrite andb_true_r. destruct (same_family f (kind c)) eqn:SF.
      * apply same_family_eq in SF. subst f. rewrite put_at_nth_same by exact Ln. rewrite (inv_default _ _ I), O2. reflexivity.
      * rewrite put_at_nth_other; [apply (inv_default _ _ I)|]. intros E. apply default_number_inj in E. subst f.
        rewrite same_family_refl in SF. discriminate.
  - intros j d i J. rewrite put_at_length. exact (inv_there _ _ I _ _ _ J).
  - intros j d i J G O. change (owns past j d = true) in O. destruct (inv_own _ _ I _ _ _ J G O) as [G1 G2]. split; [exact G1|].
    destruct (Nat.eqb_spec k j) as [<-|NE].
    + rewrite H in J. injection J as <- <-. rewrite put_at_nth_same by exact Ln. rewrite G2. reflexivity.
    + rewrite put_at_nth_other; [exact G2|]. intros <-. apply NE. symmetry. exact (inv_apart _ _ I _ _ _ _ _ J H G F O).
  - intros j d i J G O. exact (inv_shared _ _ I _ _ _ J G O).
  - intros j l d e i J L G1 G2 O. exact (inv_apart _ _ I _ _ _ _ _ J L G1 G2 O).
Qed.

Lemma replace_inv : forall past m k a v, can_set k past -> inv past m ->
  inv (Replace k a v :: past) (fst (act copies (Replace k a v) m)).
Proof.
  intros past m k a v [c [C TC]] I. destruct (inv_nth _ _ _ _ I C) as [n H]. simpl. rewrite H. simpl.
  pose proof (takes_not_fixed _ TC) as F. pose proof (inv_two _ _ I) as TW.
  assert (Lk : (k < length (commands m))%nat) by (apply nth_error_Some; congruence).
  set (N := length (controls m)) in *.
  assert (SPLIT : forall j d i, nth_error (put_at k (c, N) (commands m)) j = Some (d, i) ->
     (j = k /\ d = c /\ i = N) \/ (j <> k /\ nth_error (commands m) j = Some (d, i))).
  { intros j d i J. destruct (Nat.eq_dec k j) as [<-|NE].
    - rewrite put_at_same in J by exact Lk. injection J as <- <-. auto.
    - rewrite put_at_other in J by exact NE. auto. }
  assert (OW : forall j d, j <> k -> owns (Replace k a v :: past) j d = owns past j d).
  { intros j d NE. unfold owns. simpl. replace (Nat.eqb k j) with false by (symmetry; apply Nat.eqb_neq; auto). reflexivity. }
  assert (OK : forall d, owns (Replace k a v :: past) k d = true) by (intros d; unfold owns; simpl; rewrite Nat.eqb_refl; reflexivity).
  assert (KEEP : forall i, (i < N)%nat -> nth i (controls m ++ [(a, v)]) (0, 0) = nth i (controls m) (0, 0))
    by (intros i Li; apply app_nth1; exact Li).
  constructor; simpl.
  - rewrite (put_at_fst _ _ _ _ _ H). apply (inv_made _ _ I).
  - rewrite app_length; simpl; fold N; lia.
  - intros f. rewrite KEEP by (pose proof (default_below f); lia). apply (inv_default _ _ I).
  - intros j d i J. rewrite app_length; simpl; fold N. destruct (SPLIT _ _ _ J) as [[-> [-> ->]]|[NE J']]; [lia|].
    pose proof (inv_there _ _ I _ _ _ J'). fold N in H0. lia.
  - intros j d i J G O. destruct (SPLIT _ _ _ J) as [[-> [-> ->]]|[NE J']].
    + rewrite Nat.eqb_refl. split; [lia|]. rewrite app_nth2, Nat.sub_diag by (fold N; lia). reflexivity.
    + rewrite OW in O by exact NE. replace (Nat.eqb k j) with false by (symmetry; apply Nat.eqb_neq; auto).
      rewrite KEEP by (exact (inv_there _ _ I _ _ _ J')). exact (inv_own _ _ I _ _ _ J' G O).
  - intros j d i J G O. destruct (SPLIT _ _ _ J) as [[-> [-> ->]]|[NE J']].
    + rewrite OK in O. discriminate.
    + rewrite OW in O by exact NE. exact (inv_shared _ _ I _ _ _ J' G O).
  - intros j l d e i J L G1 G2 O. destruct (SPLIT _ _ _ J) as [[-> [-> ->]]|[NE J']]; destruct (SPLIT _ _ _ L) as [[-> [-> E]]|[NE' L']]; auto.
    + pose proof (inv_there _ _ I _ _ _ L') as B. fold N in B. lia.
    + pose proof (inv_there _ _ I _ _ _ J') as B. fold N in B. lia.
    + rewrite OW in O by exact NE. exact (inv_apart _ _ I _ _ _ _ _ J' L' G1 G2 O).
Qed.

Lemma execute_inv : forall past m k, inv past m -> inv (Execute k :: past) (fst (act copies (Execute k) m)).
Proof.
  intros past m k I. simpl. change sets_before_pack with control_is_fixed. destruct (nth_error (commands m) k) as [[c n]|] eqn:H.
  2:{ destruct I; constructor; assumption. }
  destruct (control_is_fixed c) eqn:F.
  2:{ destruct I; constructor; assumption. }
  destruct (take_default copies OfBuffer (controls m)) as [cs n'] eqn:T.
  destruct (take_default_spec past m _ _ _ I T) as [L1 [L2 [L3 L4]]]. simpl.
  pose proof (inv_two _ _ I) as TW.
  assert (Lk : (k < length (commands m))%nat) by (apply nth_error_Some; congruence).
  assert (SPLIT : forall j d i, nth_error (put_at k (c, n') (commands m)) j = Some (d, i) ->
     (d = c /\ i = n') \/ nth_error (commands m) j = Some (d, i)).
  { intros j d i J. destruct (Nat.eq_dec k j) as [<-|NE].
    - rewrite put_at_same in J by exact Lk. injection J as <- <-. auto.
    - rewrite put_at_other in J by exact NE. auto. }
  constructor; simpl.
  - rewrite (put_at_fst _ _ _ _ _ H). apply (inv_made _ _ I).
  - lia.
  - intros f. rewrite L2 by (pose proof (default_below f); lia). apply (inv_default _ _ I).
  - intros j d i J. destruct (SPLIT _ _ _ J) as [[-> ->]|J']; [lia|]. pose proof (inv_there _ _ I _ _ _ J'). lia.
  - intros j d i J G O. destruct (SPLIT _ _ _ J) as [[-> ->]|J']; [congruence|].
    rewrite L2 by (exact (inv_there _ _ I _ _ _ J')). exact (inv_own _ _ I _ _ _ J' G O).
  - intros j d i J G O. destruct (SPLIT _ _ _ J) as [[-> ->]|J']; [congruence|]. exact (inv_shared _ _ I _ _ _ J' G O).
  - intros j l d e i J L G1 G2 O. destruct (SPLIT _ _ _ J) as [[-> ->]|J']; [congruence|].
    destruct (SPLIT _ _ _ L) as [[-> _]|L']; [congruence|]. exact (inv_apart _ _ I _ _ _ _ _ J' L' G1 G2 O).
Qed.

Lemma after_inv : forall past, sensible past -> inv past (after copies past).
Proof.
  induction past as [|a past IH]; intros H; [exact start_inv|].
  destruct a as [c|k w x|k n v|k]; cbn [after].
  - apply make_inv; [apply H|apply IH, H].
  - apply set_inv; [apply H|apply IH, H].
  - apply replace_inv; [apply H|apply IH, H].
  - apply execute_inv, IH, H.
Qed.
End Copies.

(** * The control byte in the CDB *)
Lemma control_request : forall c n v r, proper c -> takes_control c -> issued c = Ok r -> 0 <= n < 2 -> 0 <= v < 4 ->
  issued_with (control_settings n v) c = Ok (with_control (n, v) r).
Proof.
  intros c n v r P TC R Fn Fv. destruct (control_byte c n v r P TC R Fn Fv) as [r' [R' [_ E]]]. rewrite R'. f_equal.
  rewrite <- set_nothing in R. destruct (control_here c TC) as [C1 C2].
  pose proof (set_one c [] r _ _ v R C2 ltac:(cbn; lia)) as H1.
  pose proof (set_one c _ _ _ _ n H1 C1 ltac:(cbn; lia)) as H2.
  change (issued_with (control_settings n v) c = Ok (changed c "control.naca" (Place (fst (table c) - 1) 2 1) n
    (changed c "control.vendor_specific" (Place (fst (table c) - 1) 6 2) v r))) in H2.
  rewrite R' in H2. injection H2 as ->.
  destruct r as [cdb m|cdb d]; cbn [changed command_of with_control fst snd] in *; rewrite E; [|reflexivity].
  f_equal. destruct c; reflexivity.
Qed.

(** * What is sent *)
Section Sent.
Context (copies : family -> bool).

Theorem sent_ok : forall past k c r, sensible past -> nth_error (made past) k = Some c -> issued c = Ok r ->
  snd (act copies (Execute k) (after copies past)) = Handed (Ok (with_control (sent_control copies k c past) r)).
Proof.
  intros past k c r SP C R. pose proof (after_inv copies past SP) as I. destruct (inv_nth _ _ _ _ _ I C) as [n H].
  assert (GOOD : can_send c).
  { clear I n H R. revert k C. induction past as [|a past IH]; intros k C; [destruct k; discriminate|].
    destruct a as [d|j w x|j a v|j]; simpl in *; try (apply (IH ltac:(tauto) _ C)).
    destruct (Nat.lt_ge_cases k (length (made past))) as [L|L].
    - rewrite nth_error_app1 in C by exact L. apply (IH ltac:(tauto) _ C).
    - rewrite nth_error_app2 in C by exact L. destruct (k - length (made past))%nat as [|q]; simpl in C.
      + injection C as <-. apply SP.
      + destruct q; discriminate. }
  destruct GOOD as [P [_ NR]]. simpl. rewrite H. unfold sent_control, handed. change sets_before_pack with control_is_fixed.
  destruct (control_is_fixed c) eqn:F.
  - destruct (take_default copies OfBuffer (controls (after copies past))) as [cs n'] eqn:T.
    destruct (take_default_spec copies past _ _ _ _ I T) as [_ [_ [_ L4]]]. simpl. rewrite R. simpl.
    assert (E : nth n' cs (0, 0) = if copies OfBuffer then (0, 0) else set_in_any OfBuffer past)
      by (destruct (copies OfBuffer); apply L4).
    rewrite E. unfold with_control. destruct r; reflexivity.
  - simpl. pose proof (fixed_not_takes c F NR) as TC.
    assert (E : nth n (controls (after copies past)) (0, 0) =
      if has_own k past || copies (kind c) then set_in k past else set_in_any (kind c) past).
    { fold (owns copies past k c). destruct (owns copies past k c) eqn:O.
      - exact (proj2 (inv_own _ _ _ I _ _ _ H F O)).
      - rewrite (inv_shared _ _ _ I _ _ _ H F O), (inv_default _ _ _ I).
        unfold owns in O. apply orb_false_iff in O. rewrite (proj2 O). reflexivity. }
    rewrite E.
    set (p := if has_own k past || copies (kind c) then set_in k past else set_in_any (kind c) past).
    assert (B : pair_fits p) by (unfold p; destruct (_ || _); [apply set_in_fits|apply set_in_any_fits]; exact SP).
    destruct B as [B1 B2]. rewrite (control_request c _ _ r P TC R B1 B2). destruct p; reflexivity.
Qed.

End Sent.

(** Nothing is set in the defaults. *)
Lemma defaults_kept : forall past f, keeps_off_defaults past -> set_in_any f past = (0, 0).
Proof.
  induction past as [|a past IH]; intros f H; [reflexivity|].
  destruct a as [c|k w x|k n v|k]; simpl in *; try (apply IH; tauto).
  unfold on_default. destruct H as [H1 H2]. rewrite H1. simpl.
  destruct (nth_error (made past) k); rewrite ?andb_false_r; apply IH, H2.
Qed.
Lemma never_set : forall past k, keeps_off_defaults past -> has_own k past = false -> set_in k past = (0, 0).
Proof.
  induction past as [|a past IH]; intros k H N; [reflexivity|].
  destruct a as [c|j w x|j n v|j]; simpl in *; try (apply IH; tauto).
  - destruct (Nat.eqb_spec j k) as [<-|NE]; [|apply IH; tauto]. destruct H as [H _]. fold (has_own j past) in *. congruence.
  - apply orb_false_iff in N. destruct N as [N1 N2]. rewrite N1. apply IH; assumption.
Qed.
