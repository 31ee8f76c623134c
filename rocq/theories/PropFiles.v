(** C102: which device a file object reaches. *)
From Coq Require Import ZArith List Bool Lia Permutation.
From Verif Require Import Base FileObjects SpecFiles FilesFacts.
Import ListNotations.
Local Open Scope Z_scope.
Local Open Scope list_scope.

(** Windows, both classes: any program sees ideal files, whatever handles Windows gives out. *)
Theorem C102_windows : forall D pick k (al : list (action D)) t0 c, proper_os pick -> sound_table t0 -> k <> KUnix ->
  snd (acts pick k al (Process t0 [] c)) = snd (ideal_acts k al []).
Proof.
  intros D pick k al t0 c Os S K. apply (good_run pick Os k t0 al [] 0 _ (good_start k t0 c S)). left. destruct k; [contradiction|reflexivity..].
Qed.
(** UNIX: a program that leaves its closed files alone does. *)
Theorem C102_unix : forall D pick (al : list (action D)) t0 c, proper_os pick -> sound_table t0 -> careful KUnix al [] = true ->
  snd (acts pick KUnix al (Process t0 [] c)) = snd (ideal_acts KUnix al []).
Proof.
  intros D pick al t0 c Os S C. apply (good_run pick Os KUnix t0 al [] 0 _ (good_start KUnix t0 c S)). right. exact C.
Qed.
(** A closed file of UNIX reaches the device of that open file which has its descriptor now, if there is one, and closing it a second
    time closes that file. *)
Theorem C102_stale : forall D pick (al : list (action D)) t0 c f, proper_os pick -> sound_table t0 -> careful KUnix al [] = true ->
  let p := fst (acts pick KUnix al (Process t0 [] c)) in
  let files := fst (ideal_acts KUnix al []) in
  nth_error files f = Some Shut ->
  exists h, nth_error (objects p) f = Some h /\
  ((exists g d, nth_error files g = Some (Open d) /\ nth_error (objects p) g = Some h /\
     snd (act pick KUnix (AUse f) p) = Reached d /\ snd (acts pick KUnix [AClose f; AUse g] p) = [Returned; Raised (EIO 9)]) \/
   ((forall g d, nth_error files g = Some (Open d) -> nth_error (objects p) g <> Some h) /\
     snd (act pick KUnix (AUse f) p) = Raised (EIO 9) /\ snd (act pick KUnix (AClose f) p) = Raised (EIO 9))).
Proof.
  intros D pick al t0 c f Os S C p files E. destruct (good_run pick Os KUnix t0 al [] 0 _ (good_start KUnix t0 c S) (or_intror C)) as [G _].
  cbn [extra Nat.mul Nat.add] in G. apply (stale pick t0 files p f G E).
Qed.
(** It happens: with POSIX descriptors it is so for every file that is opened after another one was closed. *)
Theorem C102_other_device_refuted : forall D pick (al : list (action D)) t0 c d1 d2, proper_os pick -> posix pick -> sound_table t0 ->
  careful KUnix al [] = true ->
  let f := length (fst (ideal_acts KUnix al [])) in
  snd (acts pick KUnix (al ++ [AOpen d1; AClose f; AOpen d2; AUse f]) (Process t0 [] c)) =
    snd (ideal_acts KUnix al []) ++ [Returned; Returned; Returned; Reached d2] /\
  snd (acts pick KUnix (al ++ [AOpen d1; AClose f; AOpen d2; AClose f; AUse (S f)]) (Process t0 [] c)) =
    snd (ideal_acts KUnix al []) ++ [Returned; Returned; Returned; Returned; Raised (EIO 9)].
Proof.
  intros D pick al t0 c d1 d2 Os Px S C f. destruct (good_run pick Os KUnix t0 al [] 0 _ (good_start KUnix t0 c S) (or_intror C)) as [G E].
  destruct (reuse pick Os Px t0 _ _ _ d1 d2 G) as [A B]. rewrite !acts_app, E. split; [rewrite <- A|rewrite <- B]; reflexivity.
Qed.

(** The handles of the process: those it had, one for each open file, and with asynchronous files of Windows one event for each request
    that was ever made. *)
Theorem C102_handles : forall D pick k (al : list (action D)) t0 c, proper_os pick -> sound_table t0 -> (k <> KUnix \/ careful k al [] = true) ->
  let p := fst (acts pick k al (Process t0 [] c)) in
  let files := fst (ideal_acts k al []) in
  exists events, Permutation (handles_of p) (own files (objects p) ++ events ++ t0) /\
    Forall (fun e => snd e = Event) events /\ length events = match k with KWinAsync => uses al 0 | _ => O end /\
    length (own files (objects p)) = length (filter is_open files).
Proof.
  intros D pick k al t0 c Os S C p files.
  assert (C' : windows k = true \/ careful k al [] = true) by (destruct C as [C|C]; [left; destruct k; [contradiction|reflexivity..]|right; exact C]).
  destruct (good_run pick Os k t0 al [] 0 _ (good_start k t0 c S) C') as [[_ _ Len (ev & P & L & E) _ _] _].
  exists ev. split; [exact P|]. split; [exact E|]. split; [|apply own_length; symmetry; exact Len].
  rewrite L. destruct k; cbn [extra length]; lia.
Qed.
Lemma none_open : forall D (l : list (file_state D)), Forall (fun s => s = Shut) l -> filter is_open l = [].
Proof. intros D l A. induction A as [|x r -> A IH]; [reflexivity|exact IH]. Qed.
(** So, when all files are closed, none are left, except for the events. *)
Theorem C102_no_leak : forall D pick k (al : list (action D)) t0 c, proper_os pick -> sound_table t0 -> (k <> KUnix \/ careful k al [] = true) ->
  Forall (fun s => s = Shut) (fst (ideal_acts k al [])) -> k <> KWinAsync ->
  Permutation (handles_of (fst (acts pick k al (Process t0 [] c)))) t0.
Proof.
  intros D pick k al t0 c Os S C A K. destruct (C102_handles D pick k al t0 c Os S C) as (ev & P & _ & L & O).
  assert (F : filter is_open (fst (ideal_acts k al [])) = []).
  { apply none_open. exact A. }
  rewrite F in O. destruct (own (fst (ideal_acts k al [])) _); [|discriminate]. destruct ev; [exact P|].
  destruct k; [discriminate L|discriminate L|contradiction].
Qed.
Theorem C102_events_refuted : forall D pick (al : list (action D)) t0 c, proper_os pick -> sound_table t0 ->
  Forall (fun s => s = Shut) (fst (ideal_acts KWinAsync al [])) ->
  length (handles_of (fst (acts pick KWinAsync al (Process t0 [] c)))) = (uses al 0 + length t0)%nat.
Proof.
  intros D pick al t0 c Os S A. assert (K : KWinAsync <> KUnix) by discriminate.
  destruct (C102_handles D pick KWinAsync al t0 c Os S (or_introl K)) as (ev & P & _ & L & O).
  assert (F : filter is_open (fst (ideal_acts KWinAsync al [])) = []).
  { apply none_open. exact A. }
  rewrite F in O. destruct (own (fst (ideal_acts KWinAsync al [])) _); [|discriminate].
  apply Permutation_length in P. rewrite P. cbn [app]. rewrite app_length, L. reflexivity.
Qed.

(** An operating system as POSIX has it: the smallest number from 0 that is not in use. *)
Fixpoint smallest (fuel : nat) (h : Z) (used : list Z) : Z :=
  match fuel with
  | O => h
  | S fuel' => if existsb (Z.eqb h) used then smallest fuel' (h + 1) used else h
  end.
Definition lowest_free (n : nat) (used : list Z) : Z := smallest (length used) 0 used.
Lemma smallest_spec : forall fuel h used, h <= smallest fuel h used <= h + Z.of_nat fuel /\
  (forall x, h <= x < smallest fuel h used -> In x used) /\
  (smallest fuel h used < h + Z.of_nat fuel -> ~ In (smallest fuel h used) used).
Proof.
  induction fuel as [|fuel IH]; intros h used; cbn [smallest]; [repeat split; intros; lia|].
  destruct (existsb (Z.eqb h) used) eqn:E.
  - destruct (IH (h + 1) used) as (A & B & C). split; [lia|]. split; [|intros H; apply C; lia].
    intros x H. destruct (Z.eq_dec x h) as [->|]; [|apply B; lia]. apply existsb_exists in E. destruct E as (y & K & E). apply Z.eqb_eq in E. subst y. exact K.
  - split; [lia|]. split; [intros; lia|]. intros _ K. assert (T : existsb (Z.eqb h) used = true); [|congruence].
    apply existsb_exists. exists h. split; [exact K|apply Z.eqb_refl].
Qed.
Lemma range_nodup : forall n, NoDup (map Z.of_nat (seq 0 n)).
Proof. intros n. apply FinFun.Injective_map_NoDup; [intros x y H; lia|apply seq_NoDup]. Qed.
Theorem C102_posix_exists : proper_os lowest_free /\ posix lowest_free.
Proof.
  split.
  - intros n used. unfold lowest_free. destruct (smallest_spec (length used) 0 used) as (A & B & C). split; [|lia].
    destruct (Z.lt_ge_cases (smallest (length used) 0 used) (0 + Z.of_nat (length used))) as [H|H]; [apply C; exact H|].
    assert (E : smallest (length used) 0 used = Z.of_nat (length used)) by lia. rewrite E in *. intros K.
    assert (I : incl (map Z.of_nat (seq 0 (S (length used)))) used).
    { intros x Hx. apply in_map_iff in Hx. destruct Hx as (m & <- & Hm). apply in_seq in Hm.
      destruct (Nat.eq_dec m (length used)) as [->|]; [exact K|]. apply B. lia. }
    apply NoDup_incl_length in I; [|apply range_nodup]. rewrite map_length, seq_length in I. lia.
  - intros n used h H. unfold lowest_free in H. destruct (smallest_spec (length used) 0 used) as (_ & B & _). apply B. exact H.
Qed.

(** Standard input, output and error, and two devices "1" and "2". *)
Definition terminal : table nat := [(0, Event); (1, Event); (2, Event)].
Example C102_example : sound_table terminal /\
  careful KUnix [AOpen 1%nat; AUse 0; AOpen 2%nat; AClose 0; AUse 1; AClose 1; AOpen 2%nat] [] = true /\
  acts lowest_free KUnix [AOpen 1%nat; AUse 0; AOpen 2%nat; AClose 0; AUse 1; AUse 0; AOpen 2%nat; AUse 0; AClose 0; AUse 2] (Process terminal [] 0) =
    (Process [(4, Dev 2%nat); (0, Event); (1, Event); (2, Event)] [3; 4; 3] 10,
     [Returned; Reached 1%nat; Returned; Returned; Reached 2%nat; Raised (EIO 9); Returned; Reached 2%nat; Returned; Raised (EIO 9)]) /\
  snd (ideal_acts KUnix [AOpen 1%nat; AUse 0; AOpen 2%nat; AClose 0; AUse 1; AUse 0; AOpen 2%nat; AUse 0; AClose 0; AUse 2] []) =
    [Returned; Reached 1%nat; Returned; Returned; Reached 2%nat; Raised (EIO 9); Returned; Raised (EIO 9); Raised (EIO 9); Reached 2%nat].
Proof.
  split; [split; [repeat constructor; cbn; intuition discriminate|repeat constructor; cbn; lia]|]. split; [reflexivity|]. split; vm_compute; reflexivity.
Qed.
Example C102_windows_example :
  acts lowest_free KWinAsync [AOpen 1%nat; AUse 0; AUse 0; AClose 0; AClose 0; AUse 0; AOpen 2%nat; AUse 0; AUse 1; AClose 1] (Process [] [] 0) =
    (Process [(5, Event); (4, Event); (0, Event); (2, Event); (1, Event)] [-1; -1] 10,
     [Returned; Reached 1%nat; Reached 1%nat; Returned; Returned; Raised EAsiOS; Returned; Raised EAsiOS; Reached 2%nat; Returned]) /\
  uses [AOpen 1%nat; AUse 0; AUse 0; AClose 0; AClose 0; AUse 0; AOpen 2%nat; AUse 0; AUse 1; AClose 1] 0 = 5%nat /\
  fst (ideal_acts KWinAsync [AOpen 1%nat; AUse 0; AUse 0; AClose 0; AClose 0; AUse 0; AOpen 2%nat; AUse 0; AUse 1; AClose 1] []) = [Shut; Shut].
Proof. split; [|split]; vm_compute; reflexivity. Qed.
(** A file that is closed while the handle of another one is in use. *)
Example C102_stale_example :
  careful KUnix [AOpen 1%nat; AClose 0; AOpen 2%nat] [] = true /\ fst (ideal_acts KUnix [AOpen 1%nat; AClose 0; AOpen 2%nat] []) = [Shut; Open 2%nat] /\
  objects (fst (acts lowest_free KUnix [AOpen 1%nat; AClose 0; AOpen 2%nat] (Process terminal [] 0))) = [3; 3] /\
  objects (fst (acts (fun n _ => 100 + Z.of_nat n) KUnix [AOpen 1%nat; AClose 0; AOpen 2%nat] (Process terminal [] 0))) = [100; 102].
Proof. repeat split; vm_compute; reflexivity. Qed.

Print Assumptions C102_windows.
Print Assumptions C102_unix.
Print Assumptions C102_stale.
Print Assumptions C102_other_device_refuted.
Print Assumptions C102_handles.
Print Assumptions C102_no_leak.
Print Assumptions C102_events_refuted.
Print Assumptions C102_posix_exists.
