(** Facts about file objects and the handle table. *)
From Coq Require Import ZArith List Bool Lia Permutation.
From Verif Require Import Base FileObjects SpecFiles.
Import ListNotations.
Local Open Scope Z_scope.
Local Open Scope list_scope.

Section Facts.
Context {D : Type}.
Implicit Types (t : table D) (l : list (file_state D)) (hs : list Z) (p : process D).

Lemma find_some : forall h x t, NoDup (map fst t) -> In (h, x) t -> find h t = Some x.
Proof.
  intros h x t. unfold find. induction t as [|[h0 x0] t IH]; intros N E; [destruct E|].
  cbn [map fst] in N. inversion N as [|? ? N1 N2]; subst. cbn [List.find fst]. destruct E as [E|E].
  - injection E as -> ->. rewrite Z.eqb_refl. reflexivity.
  - destruct (Z.eqb_spec h0 h) as [->|]; [|apply IH; assumption].
    exfalso. apply N1. change h with (fst (h, x)). apply in_map. exact E.
Qed.
Lemma find_in : forall h x t, find h t = Some x -> In (h, x) t.
Proof.
  intros h x t. unfold find. induction t as [|[h0 x0] t IH]; cbn [List.find fst]; [discriminate|].
  destruct (Z.eqb_spec h0 h) as [->|]; intros E; [injection E as ->; left; reflexivity|right; apply IH; exact E].
Qed.
Lemma find_none : forall h t, ~ In h (map fst t) -> find h t = None.
Proof.
  intros h t N. destruct (find h t) as [x|] eqn:E; [|reflexivity]. exfalso. apply N.
  change h with (fst (h, x)). apply in_map. apply find_in. exact E.
Qed.
Lemma drop_absent : forall h t, ~ In h (map fst t) -> drop h t = t.
Proof.
  intros h t. unfold drop. induction t as [|[h0 x0] t IH]; intros N; [reflexivity|]. cbn [filter fst map] in *.
  destruct (Z.eqb_spec h0 h) as [->|]; [exfalso; apply N; left; reflexivity|]. cbn [negb]. f_equal. apply IH. intros H. apply N. right. exact H.
Qed.
Lemma perm_filter : forall (A : Type) (f : A -> bool) a b, Permutation a b -> Permutation (filter f a) (filter f b).
Proof.
  intros A f a b P. induction P; cbn [filter].
  - constructor.
  - destruct (f x); [constructor|]; assumption.
  - destruct (f x), (f y); try apply Permutation_refl. apply perm_swap.
  - eapply Permutation_trans; eassumption.
Qed.
Lemma drop_perm : forall h x t r, NoDup (map fst t) -> Permutation t ((h, x) :: r) -> Permutation (drop h t) r.
Proof.
  intros h x t r N P. assert (M : NoDup (map fst ((h, x) :: r))) by (eapply Permutation_NoDup; [apply Permutation_map; exact P|exact N]).
  cbn [map fst] in M. inversion M as [|? ? M1 M2]; subst. eapply Permutation_trans; [apply perm_filter; exact P|].
  cbn [filter fst]. rewrite Z.eqb_refl. cbn [negb]. fold (@drop D h r). rewrite (drop_absent h r M1). apply Permutation_refl.
Qed.

Lemma own_app : forall l hs l' hs', length l = length hs -> own (l ++ l') (hs ++ hs') = own l hs ++ own l' hs'.
Proof.
  induction l as [|[d|] l IH]; intros [|h hs] l' hs' E; cbn in E; try discriminate; cbn [own app]; [reflexivity| |]; rewrite IH by lia; reflexivity.
Qed.
Lemma own_shut : forall f l hs d h h', nth_error l f = Some (Open d) -> nth_error hs f = Some h ->
  Permutation (own l hs) ((h, Dev d) :: own (shut_at f l) (set_at f h' hs)).
Proof.
  induction f as [|f IH]; intros [|x l] [|h0 hs] d h h' E F; cbn in E, F; try discriminate.
  - injection E as ->. injection F as ->. cbn [own shut_at set_at]. apply Permutation_refl.
  - cbn [own shut_at set_at]. specialize (IH l hs d h h' E F). destruct x as [d0|].
    + cbn [own]. eapply Permutation_trans; [apply perm_skip; exact IH|apply perm_swap].
    + cbn [own]. exact IH.
Qed.
Lemma own_in : forall f l hs d h, nth_error l f = Some (Open d) -> nth_error hs f = Some h -> In (h, Dev d) (own l hs).
Proof.
  intros f l hs d h E F. eapply Permutation_in; [apply Permutation_sym; apply (own_shut f l hs d h h E F)|left; reflexivity].
Qed.
Lemma in_own : forall l hs h x, In (h, x) (own l hs) -> exists f d, nth_error l f = Some (Open d) /\ nth_error hs f = Some h /\ x = Dev d.
Proof.
  induction l as [|[d|] l IH]; intros [|h0 hs] h x E; cbn [own] in E; try contradiction.
  - destruct E as [E|E]; [injection E as -> <-; exists O, d; repeat split; reflexivity|].
    destruct (IH hs h x E) as (f & d' & A & B & C). exists (S f), d'. repeat split; assumption.
  - destruct (IH hs h x E) as (f & d' & A & B & C). exists (S f), d'. repeat split; assumption.
Qed.
Lemma own_length : forall l hs, length l = length hs -> length (own l hs) = length (filter is_open l).
Proof.
  induction l as [|[d|] l IH]; intros [|h hs] E; cbn in E; try discriminate; cbn [own filter is_open length]; [reflexivity| |]; rewrite IH by lia; reflexivity.
Qed.

Lemma shut_length : forall f l, length (shut_at f l) = length l.
Proof. induction f as [|f IH]; intros [|x l]; cbn; [reflexivity..|]. rewrite IH. reflexivity. Qed.
Lemma set_length : forall f h hs, length (set_at f h hs) = length hs.
Proof. induction f as [|f IH]; intros h [|x l]; cbn; [reflexivity..|]. rewrite IH. reflexivity. Qed.
Lemma set_same : forall f h hs, nth_error hs f = Some h -> set_at f h hs = hs.
Proof.
  induction f as [|f IH]; intros h [|x l] E; cbn in E; try discriminate; cbn [set_at]; [injection E as ->; reflexivity|].
  rewrite IH by exact E. reflexivity.
Qed.
Lemma set_nth_error : forall f g h hs, nth_error (set_at f h hs) g =
  if (f =? g)%nat then match nth_error hs g with Some _ => Some h | None => None end else nth_error hs g.
Proof.
  induction f as [|f IH]; intros [|g] h [|x l]; cbn [set_at nth_error Nat.eqb]; try reflexivity.
  - destruct (f =? g)%nat; reflexivity.
  - apply IH.
Qed.
Lemma shut_nth : forall f g l, nth_error (shut_at f l) g =
  if (f =? g)%nat then match nth_error l g with Some _ => Some Shut | None => None end else nth_error l g.
Proof.
  induction f as [|f IH]; intros [|g] [|x l]; cbn [shut_at nth_error Nat.eqb]; try reflexivity.
  - destruct (f =? g)%nat; reflexivity.
  - apply IH.
Qed.
Lemma nth_there : forall (A : Type) (l : list A) n, (n < length l)%nat -> exists x, nth_error l n = Some x.
Proof. intros A l n H. destruct (nth_error l n) as [x|] eqn:E; [eauto|]. apply nth_error_None in E. lia. Qed.
Lemma nth_within : forall (A : Type) (l : list A) n x, nth_error l n = Some x -> (n < length l)%nat.
Proof. intros A l n x E. apply nth_error_Some. congruence. Qed.

(** The state of the process against the ideal one; n is the number of events. *)
Definition windows (k : kind) : bool := match k with KUnix => false | _ => true end.
Record good_process (k : kind) (t0 : table D) (l : list (file_state D)) (n : nat) (p : process D) : Prop := GoodProcess {
  gp_nodup : NoDup (map fst (handles_of p));
  gp_positive : Forall (fun e => 0 <= fst e) (handles_of p);
  gp_length : length (objects p) = length l;
  gp_table : exists ev, Permutation (handles_of p) (own l (objects p) ++ ev ++ t0) /\ length ev = n /\ Forall (fun e => snd e = Event) ev;
  gp_shut : forall f, nth_error l f = Some Shut -> windows k = true -> nth_error (objects p) f = Some (-1);
  gp_others : forall f h, nth_error (objects p) f = Some h -> ~ In h (map fst t0) }.

Context (pick : nat -> list Z -> Z) (Os : proper_os pick).

Lemma open_in_table : forall k t0 l n p f d h, good_process k t0 l n p -> nth_error l f = Some (Open d) -> nth_error (objects p) f = Some h ->
  In (h, Dev d) (handles_of p).
Proof.
  intros k t0 l n p f d h [_ _ _ (ev & P & _) _ _] E F. eapply Permutation_in; [apply Permutation_sym; exact P|].
  apply in_or_app. left. apply (own_in f l (objects p) d h E F).
Qed.
Lemma open_found : forall k t0 l n p f d h, good_process k t0 l n p -> nth_error l f = Some (Open d) -> nth_error (objects p) f = Some h ->
  find h (handles_of p) = Some (Dev d) /\ 0 <= h.
Proof.
  intros k t0 l n p f d h G E F. pose proof (open_in_table _ _ _ _ _ _ _ _ G E F) as K. split.
  - apply find_some; [apply G|exact K].
  - destruct G as [_ Pos _ _ _ _]. rewrite Forall_forall in Pos. apply (Pos (h, Dev d) K).
Qed.
Lemma positive_keys : forall (t : table D) h, Forall (fun e => 0 <= fst e) t -> In h (map fst t) -> 0 <= h.
Proof. intros t h P E. apply in_map_iff in E. destruct E as (e & <- & E). rewrite Forall_forall in P. apply P. exact E. Qed.
Lemma minus_one : forall k t0 l n p, good_process k t0 l n p -> find (-1) (handles_of p) = None.
Proof.
  intros k t0 l n p G. apply find_none. intros E. destruct G as [_ Pos _ _ _ _]. apply (positive_keys _ _ Pos) in E. lia.
Qed.

Lemma good_open : forall k t0 l n p d, good_process k t0 l n p ->
  good_process k t0 (l ++ [Open d]) n (fst (act pick k (AOpen d) p)) /\ snd (act pick k (AOpen d) p) = Returned.
Proof.
  intros k t0 l n p d [N Pos Len (ev & P & Lev & Eev) Sh Ot]. destruct (Os (calls p) (map fst (handles_of p))) as [New NonNeg].
  cbn [act open_file add fst snd]. unfold open_file, add. set (h := pick (calls p) (map fst (handles_of p))) in *.
  cbn [fst snd]. split; [|reflexivity]. constructor; cbn [handles_of objects].
  - cbn [map fst]. constructor; assumption.
  - constructor; assumption.
  - rewrite !app_length. cbn. lia.
  - exists ev. split; [|split; assumption]. rewrite own_app by (symmetry; exact Len). cbn [own].
    eapply Permutation_trans; [apply perm_skip; exact P|]. rewrite <- app_assoc. cbn [app].
    apply Permutation_middle.
  - intros f E W. assert (L : (f < length l)%nat).
    { destruct (Nat.lt_ge_cases f (length l)) as [|Ge]; [assumption|]. rewrite nth_error_app2 in E by exact Ge.
      destruct (f - length l)%nat as [|m] eqn:Em; cbn in E; [discriminate|]. destruct m; discriminate. }
    rewrite nth_error_app1 in E by exact L. rewrite nth_error_app1 by lia. apply Sh; assumption.
  - intros f h0 E K. destruct (Nat.lt_ge_cases f (length (objects p))) as [L|Ge].
    + rewrite nth_error_app1 in E by exact L. apply (Ot f h0 E K).
    + rewrite nth_error_app2 in E by exact Ge. destruct (f - length (objects p))%nat as [|m]; cbn in E; [|destruct m; discriminate].
      injection E as <-. apply New. eapply Permutation_in; [apply Permutation_map; apply Permutation_sym; exact P|].
      rewrite !map_app. apply in_or_app. right. apply in_or_app. right. exact K.
Qed.

Lemma good_close : forall k t0 l n p f d, good_process k t0 l n p -> nth_error l f = Some (Open d) ->
  good_process k t0 (shut_at f l) n (fst (act pick k (AClose f) p)) /\ snd (act pick k (AClose f) p) = Returned.
Proof.
  intros k t0 l n p f d G E. pose proof G as [N Pos Len (ev & P & Lev & Eev) Sh Ot].
  destruct (nth_there _ (objects p) f) as [h F]; [rewrite Len; apply (nth_within _ _ _ _ E)|].
  destruct (open_found _ _ _ _ _ _ _ _ G E F) as [Fd NonNeg]. cbn [act]. rewrite F.
  assert (Close : close_file k h (handles_of p) = (drop h (handles_of p), if windows k then -1 else h, Returned)).
  { unfold close_file. rewrite Fd. destruct k; cbn [windows]; [reflexivity| |]; (destruct (Z.eqb_spec h (-1)); [lia|reflexivity]). }
  rewrite Close. cbn [fst snd]. split; [|reflexivity]. set (h' := if windows k then -1 else h).
  pose proof (own_shut f l (objects p) d h h' E F) as OS.
  assert (P' : Permutation (drop h (handles_of p)) (own (shut_at f l) (set_at f h' (objects p)) ++ ev ++ t0)).
  { apply (drop_perm h (Dev d)); [exact N|]. eapply Permutation_trans; [exact P|]. rewrite app_comm_cons. apply Permutation_app_tail. exact OS. }
  constructor; cbn [handles_of objects].
  - assert (M : NoDup (map fst ((h, Dev d) :: drop h (handles_of p)))).
    { eapply Permutation_NoDup; [|exact N]. apply Permutation_map. eapply Permutation_trans; [exact P|].
      eapply Permutation_trans; [apply Permutation_app_tail; exact OS|]. cbn [app]. apply perm_skip. apply Permutation_sym. exact P'. }
    cbn [map] in M. inversion M; assumption.
  - apply Forall_forall. intros e K. rewrite Forall_forall in Pos. apply Pos. unfold drop in K. apply filter_In in K. apply K.
  - rewrite set_length, shut_length. exact Len.
  - exists ev. repeat split; assumption.
  - intros g K W. rewrite shut_nth in K. rewrite set_nth_error. destruct (Nat.eqb_spec f g) as [Efg|].
    + rewrite <- Efg, F. unfold h'. rewrite W. reflexivity.
    + apply Sh; assumption.
  - intros g h0 K. rewrite set_nth_error in K. destruct (Nat.eqb_spec f g) as [Efg|]; [|apply (Ot g h0 K)].
    rewrite <- Efg, F in K. injection K as <-. unfold h'. destruct (windows k); [|apply (Ot f h F)].
    intros K. assert (Z : 0 <= -1); [|lia]. apply (positive_keys _ _ Pos). eapply Permutation_in; [apply Permutation_map; apply Permutation_sym; exact P|].
    rewrite !map_app. apply in_or_app. right. apply in_or_app. right. exact K.
Qed.

(** Events made by a use. *)
Definition extra (k : kind) : nat := match k with KWinAsync => 1%nat | _ => O end.
Lemma good_use : forall k t0 l n p f s, good_process k t0 l n p -> nth_error l f = Some s ->
  good_process k t0 l (extra k + n) (fst (act pick k (AUse f) p)) /\
  (forall d, s = Open d -> snd (act pick k (AUse f) p) = Reached d) /\
  (s = Shut -> windows k = true -> snd (act pick k (AUse f) p) = Raised EAsiOS).
Proof.
  intros k t0 l n p f s G E. pose proof G as [N Pos Len (ev & P & Lev & Eev) Sh Ot].
  destruct (nth_there _ (objects p) f) as [h F]; [rewrite Len; apply (nth_within _ _ _ _ E)|].
  assert (Main : good_process k t0 l (extra k + n) (fst (act pick k (AUse f) p))).
  { cbn [act]. rewrite F. destruct k; cbn [use_file fst extra plus].
    - constructor; cbn [handles_of objects]; try assumption. exists ev. repeat split; assumption.
    - constructor; cbn [handles_of objects]; try assumption. exists ev. repeat split; assumption.
    - destruct (Os (calls p) (map fst (handles_of p))) as [New NonNeg]. unfold add. set (e := pick (calls p) (map fst (handles_of p))) in *.
      cbn [fst]. constructor; cbn [handles_of objects]; try assumption.
      + cbn [map fst]. constructor; assumption.
      + constructor; assumption.
      + exists ((e, Event) :: ev). split; [|split; [cbn; lia|constructor; [reflexivity|assumption]]].
        eapply Permutation_trans; [apply perm_skip; exact P|]. cbn [app]. apply Permutation_middle. }
  split; [exact Main|]. cbn [act]. rewrite F. split.
  - intros d ->. destruct (open_found _ _ _ _ _ _ _ _ G E F) as [Fd NonNeg].
    destruct k; cbn [use_file snd]; [rewrite Fd; reflexivity..|]. unfold add. cbn [snd].
    destruct (Os (calls p) (map fst (handles_of p))) as [New _].
    assert (Fd' : find h ((pick (calls p) (map fst (handles_of p)), Event) :: handles_of p) = Some (Dev d)).
    { apply find_some; [cbn [map fst]; constructor; assumption|]. right. apply find_in. exact Fd. }
    rewrite Fd'. reflexivity.
  - intros -> W. pose proof (Sh f E W) as Fm. rewrite F in Fm. injection Fm as ->.
    pose proof (minus_one _ _ _ _ _ G) as Fd. destruct k; cbn [use_file snd]; [discriminate|rewrite Fd; reflexivity|].
    unfold add. cbn [snd]. destruct (Os (calls p) (map fst (handles_of p))) as [New NonNeg].
    rewrite find_none; [reflexivity|]. cbn [map fst]. intros [K|K]; [lia|]. apply (positive_keys _ _ Pos) in K. lia.
Qed.

(** A step of the process and the ideal one. *)
Lemma good_step : forall k t0 l n p a, good_process k t0 l n p -> (windows k = true \/ careful_act a l = true) ->
  good_process k t0 (fst (ideal_act k a l)) ((extra k * uses [a] (length l)) + n) (fst (act pick k a p)) /\
  snd (act pick k a p) = snd (ideal_act k a l).
Proof.
  intros k t0 l n p a G C. destruct a as [d|f|f].
  - cbn [ideal_act fst snd uses]. destruct (good_open k t0 l n p d G) as [A B].
    replace (extra k * 0 + n)%nat with n by lia. split; [exact A|exact B].
  - replace (extra k * uses [AClose (D := D) f] (length l) + n)%nat with n by (cbn; lia). cbn [ideal_act].
    pose proof G as [N Pos Len (ev & P & Lev & Eev) Sh Ot].
    destruct (nth_error l f) as [[d|]|] eqn:E.
    + destruct (good_close k t0 l n p f d G E) as [A B]. cbn [fst snd]. split; [exact A|exact B].
    + cbn [fst snd]. destruct C as [W|C]; [|cbn [careful_act] in C; rewrite E in C; discriminate].
      pose proof (Sh f E W) as F. cbn [act]. rewrite F.
      assert (Close : close_file k (-1) (handles_of p) = (handles_of p, -1, Returned)) by (destruct k; [discriminate|reflexivity..]).
      rewrite Close. cbn [fst snd calls]. rewrite set_same by exact F. split.
      * constructor; cbn [handles_of objects]; try assumption. exists ev. repeat split; assumption.
      * destruct k; [discriminate|reflexivity..].
    + cbn [fst snd act]. assert (F : nth_error (objects p) f = None) by (apply nth_error_None; rewrite Len; apply nth_error_None; exact E).
      rewrite F. cbn [fst snd]. split; [exact G|reflexivity].
  - cbn [ideal_act fst snd uses]. pose proof G as [N Pos Len (ev & P & Lev & Eev) Sh Ot].
    destruct (nth_error l f) as [s|] eqn:E.
    + pose proof (nth_within _ _ _ _ E) as L. destruct (Nat.ltb_spec f (length l)) as [_|]; [|lia].
      destruct (good_use k t0 l n p f s G E) as (A & B & C'). replace (extra k * (1 + 0) + n)%nat with (extra k + n)%nat by lia.
      split; [exact A|].
      destruct s as [d|]; [apply B; reflexivity|]. destruct C as [W|C]; [|cbn [careful_act] in C; rewrite E in C; discriminate].
      rewrite (C' eq_refl W). destruct k; [discriminate|reflexivity..].
    + apply nth_error_None in E. destruct (Nat.ltb_spec f (length l)) as [|_]; [lia|].
      assert (F : nth_error (objects p) f = None) by (apply nth_error_None; lia).
      cbn [act]. rewrite F. cbn [fst snd]. replace (extra k * (0 + 0) + n)%nat with n by lia. split; [exact G|reflexivity].
Qed.

Lemma ideal_length : forall k a l, length (fst (ideal_act k a l)) = match a with AOpen _ => S (length l) | _ => length l end.
Proof.
  intros k [d|f|f] l; cbn [ideal_act fst]; [rewrite app_length; cbn; lia| |reflexivity].
  destruct (nth_error l f) as [[d|]|]; cbn [fst]; [apply shut_length|reflexivity..].
Qed.
Lemma good_run : forall k t0 al l n p, good_process k t0 l n p -> (windows k = true \/ careful k al l = true) ->
  good_process k t0 (fst (ideal_acts k al l)) (extra k * uses al (length l) + n) (fst (acts pick k al p)) /\
  snd (acts pick k al p) = snd (ideal_acts k al l).
Proof.
  intros k t0 al. induction al as [|a al IH]; intros l n p G C.
  - cbn [acts ideal_acts uses fst snd]. replace (extra k * 0 + n)%nat with n by lia. split; [exact G|reflexivity].
  - assert (C1 : windows k = true \/ careful_act a l = true).
    { destruct C as [C|C]; [left; exact C|right]. cbn [careful] in C. apply andb_true_iff in C. apply C. }
    assert (C2 : windows k = true \/ careful k al (fst (ideal_act k a l)) = true).
    { destruct C as [C|C]; [left; exact C|right]. cbn [careful] in C. apply andb_true_iff in C. apply C. }
    destruct (good_step k t0 l n p a G C1) as [G1 O1]. specialize (IH _ _ _ G1 C2). rewrite ideal_length in IH.
    assert (U : uses (a :: al) (length l) = (uses [a] (length l) + uses al (match a with AOpen _ => S (length l) | _ => length l end))%nat).
    { destruct a; cbn [uses]; lia. }
    rewrite U. cbn [acts ideal_acts]. destruct (act pick k a p) as [p1 o1]. destruct (ideal_act k a l) as [l1 o1']. cbn [fst snd] in *. subst o1'.
    destruct (acts pick k al p1) as [p2 os]. destruct (ideal_acts k al l1) as [l2 os']. cbn [fst snd] in *. destruct IH as [G2 ->].
    split; [|reflexivity]. replace (extra k * (uses [a] (length l) + uses al match a with AOpen _ => S (length l) | _ => length l end) + n)%nat
      with (extra k * uses al match a with AOpen _ => S (length l) | _ => length l end + (extra k * uses [a] (length l) + n))%nat by lia. exact G2.
Qed.
Lemma good_start : forall k t0 c, sound_table t0 -> good_process k t0 [] 0 (Process t0 [] c).
Proof.
  intros k t0 c [N P]. constructor; cbn [handles_of objects]; try assumption.
  - reflexivity.
  - exists []. repeat split; [apply Permutation_refl|constructor].
  - intros [|f]; discriminate.
  - intros [|f] h; discriminate.
Qed.

(** A closed file of UNIX. *)
Lemma stale : forall t0 l p f, good_process KUnix t0 l 0 p -> nth_error l f = Some Shut ->
  exists h, nth_error (objects p) f = Some h /\
  ((exists g d, nth_error l g = Some (Open d) /\ nth_error (objects p) g = Some h /\
     snd (act pick KUnix (AUse f) p) = Reached d /\ snd (acts pick KUnix [AClose f; AUse g] p) = [Returned; Raised (EIO 9)]) \/
   ((forall g d, nth_error l g = Some (Open d) -> nth_error (objects p) g <> Some h) /\
     snd (act pick KUnix (AUse f) p) = Raised (EIO 9) /\ snd (act pick KUnix (AClose f) p) = Raised (EIO 9))).
Proof.
  intros t0 l p f G E. pose proof G as [N Pos Len (ev & P & Lev & Eev) Sh Ot].
  destruct (nth_there _ (objects p) f) as [h F]; [rewrite Len; apply (nth_within _ _ _ _ E)|].
  exists h. split; [exact F|]. destruct ev; [|discriminate]. cbn [app] in P.
  destruct (find h (handles_of p)) as [x|] eqn:Fd.
  - pose proof (find_in _ _ _ Fd) as K. apply (Permutation_in _ P) in K. apply in_app_or in K. destruct K as [K|K].
    + left. destruct (in_own _ _ _ _ K) as (g & d & Eg & Fg & ->). exists g, d. split; [exact Eg|]. split; [exact Fg|].
      cbn [act acts]. rewrite F. cbn [use_file close_file]. rewrite Fd. cbn [snd]. split; [reflexivity|].
      cbn [act objects handles_of]. rewrite set_same by exact F. rewrite Fg. cbn [use_file snd].
      rewrite find_none; [reflexivity|]. intros K2. apply in_map_iff in K2. destruct K2 as ([h2 x2] & Eh & K2). cbn [fst] in Eh. subst h2.
      unfold drop in K2. apply filter_In in K2. destruct K2 as [_ K2]. cbn [fst] in K2. rewrite Z.eqb_refl in K2. discriminate.
    + exfalso. apply (Ot f h F). change h with (fst (h, x)). apply in_map. exact K.
  - right. split.
    + intros g d Eg Fg. destruct (open_found _ _ _ _ _ _ _ _ G Eg Fg) as [K _]. rewrite Fd in K. discriminate.
    + cbn [act]. rewrite F. cbn [use_file close_file]. rewrite Fd. split; reflexivity.
Qed.

Lemma acts_app : forall k a b p, snd (acts pick k (a ++ b) p) = snd (acts pick k a p) ++ snd (acts pick k b (fst (acts pick k a p))).
Proof.
  intros k a. induction a as [|x a IH]; intros b p; cbn [app acts]; [reflexivity|].
  destruct (act pick k x p) as [p1 o]. specialize (IH b p1). destruct (acts pick k (a ++ b) p1) as [p2 os2]. destruct (acts pick k a p1) as [p3 os3].
  cbn [fst snd] in *. rewrite IH. reflexivity.
Qed.
Lemma lowest : posix pick -> forall n m used, pick n used = pick m used.
Proof.
  intros Px n m used. destruct (Os n used) as [A B], (Os m used) as [C E].
  destruct (Z.lt_trichotomy (pick n used) (pick m used)) as [H|[H|H]]; [|exact H|].
  - exfalso. apply A. apply (Px m). lia.
  - exfalso. apply C. apply (Px n). lia.
Qed.
(** The descriptor of a file that has just been closed is given to the next one. *)
Lemma nth_last : forall (A : Type) (l : list A) x n, n = length l -> nth_error (l ++ [x]) n = Some x.
Proof. intros A l x n ->. rewrite nth_error_app2 by lia. rewrite Nat.sub_diag. reflexivity. Qed.
Lemma nth_last2 : forall (A : Type) (l : list A) x y n, n = length l -> nth_error ((l ++ [x]) ++ [y]) n = Some x /\ nth_error ((l ++ [x]) ++ [y]) (S n) = Some y.
Proof.
  intros A l x y n ->. split.
  - rewrite nth_error_app1 by (rewrite app_length; cbn; lia). apply nth_last. reflexivity.
  - apply nth_last. rewrite app_length. cbn. lia.
Qed.
Lemma reuse : posix pick -> forall t0 l n p d1 d2, good_process KUnix t0 l n p ->
  let f := length l in
  snd (acts pick KUnix [AOpen d1; AClose f; AOpen d2; AUse f] p) = [Returned; Returned; Returned; Reached d2] /\
  snd (acts pick KUnix [AOpen d1; AClose f; AOpen d2; AClose f; AUse (S f)] p) = [Returned; Returned; Returned; Returned; Raised (EIO 9)].
Proof.
  intros Px t0 l n p d1 d2 [N Pos Len _ _ _] f. destruct p as [t hs c]. cbn [handles_of objects] in *.
  destruct (Os c (map fst t)) as [New _]. set (h := pick c (map fst t)) in *.
  assert (D1 : drop h ((h, Dev d1) :: t) = t).
  { unfold drop. cbn [filter fst]. rewrite Z.eqb_refl. cbn [negb]. apply (drop_absent h t New). }
  assert (D2 : drop h ((h, Dev d2) :: t) = t).
  { unfold drop. cbn [filter fst]. rewrite Z.eqb_refl. cbn [negb]. apply (drop_absent h t New). }
  assert (F1 : forall x : thing D, find h ((h, x) :: t) = Some x).
  { intros x. unfold find. cbn [List.find fst]. rewrite Z.eqb_refl. reflexivity. }
  assert (Fl : f = length hs) by (unfold f; lia).
  assert (Same : forall m, pick m (map fst t) = h) by (intros m; apply lowest; exact Px).
  pose proof (nth_last Z hs h f Fl) as L1. destruct (nth_last2 Z hs h h f Fl) as [L2 L3].
  split.
  - cbn [acts act open_file]. unfold open_file, add. cbn [handles_of objects calls fst snd]. fold h. rewrite L1. cbn [close_file].
    rewrite F1. cbn [handles_of objects calls]. rewrite set_same by exact L1. rewrite D1, Same. cbn [objects]. rewrite L2. cbn [use_file handles_of calls snd].
    rewrite F1. reflexivity.
  - cbn [acts act open_file]. unfold open_file, add. cbn [handles_of objects calls fst snd]. fold h. rewrite L1. cbn [close_file].
    rewrite F1. cbn [handles_of objects calls]. rewrite set_same by exact L1. rewrite D1, Same. cbn [objects]. rewrite L2. cbn [handles_of calls].
    rewrite F1. cbn [objects handles_of calls]. rewrite set_same by exact L2. rewrite L3, D2. cbn [use_file snd].
    rewrite (find_none h t New). reflexivity.
Qed.
End Facts.
