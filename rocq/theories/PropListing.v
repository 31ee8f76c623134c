(** C118: listing registrations, the reservation and logical units while other hosts change them. *)
From Coq Require Import String ZArith List Bool Lia PeanoNat.
From Verif Require Import Base Gen SpecGen Executer OsCommon OsLinux SpecSg SpecDrivers SpecSession Instruct Command CdbPrimary SpecDevice SpecCdb SpecExecute
  SpecPortable SpecReserve SpecAdaptive AdaptiveFacts SpecListing ListingFacts.
Import ListNotations.
Local Open Scope string_scope.
Local Open Scope list_scope.
Local Open Scope Z_scope.

(** READ KEYS, and again with required_allocation_length() if the keys did not fit: all keys of the moment of the last
    command, or None if hosts have registered in between so that there are more than the first command said. *)
Theorem C118_fetch : forall T tgt view between next, watched tgt view between next -> forall (sys : system T), one_of_four sys ->
  forall first t s, idle sys s t -> 8 <= first < 2 ^ 16 ->
  (room (view t) <= first ->
   exists s', sync_wait_ends (coroutine (os_of sys tgt) (fetch_pr 0 first)) s s' (shown (Ok (whole_keys (view t)))) /\ idle sys s' (next t)) /\
  (first < room (view t) < 2 ^ 16 -> zlen (registered (view (next t))) <= zlen (registered (view t)) ->
   exists s', sync_wait_ends (coroutine (os_of sys tgt) (fetch_pr 0 first)) s s' (shown (Ok (whole_keys (view (next t))))) /\ idle sys s' (next (next t))) /\
  (first < room (view t) < 2 ^ 16 -> zlen (registered (view t)) < zlen (registered (view (next t))) ->
   exists s', sync_wait_ends (coroutine (os_of sys tgt) (fetch_pr 0 first)) s s' (shown (Ok (no_keys (view (next t))))) /\ idle sys s' (next (next t))).
Proof.
  intros T tgt view between next Dev sys F first t s Hi A. destruct (fetch_does tgt view between next Dev (pads sys) first t A) as [X Y].
  split; [|split].
  - intro R. eapply run; eauto.
  - intros R L. specialize (Y R). replace (room (view (next t)) <=? room (view t)) with true in Y by (symmetry; apply Z.leb_le; unfold room; lia). eapply run; eauto.
  - intros R L. specialize (Y R). replace (room (view (next t)) <=? room (view t)) with false in Y by (symmetry; apply Z.leb_gt; unfold room; lia). eapply run; eauto.
Qed.

(** Asking again until the keys fit: all keys of the moment of the last command; the exception of the program if no attempt was
    long enough; an exception if more than 8190 keys are there, which cannot be asked for. *)
Theorem C118_list_keys : forall T tgt view between next, watched tgt view between next -> forall (sys : system T), one_of_four sys ->
  forall e n i first t s, idle sys s t -> 8 <= first < 2 ^ 16 -> (i < n)%nat ->
  (forall j, (j < i)%nat -> asked view next first t j < room (view (moment next j t)) < 2 ^ 16) ->
  room (view (moment next i t)) <= asked view next first t i ->
  exists s', sync_wait_ends (coroutine (os_of sys tgt) (list_keys e n first)) s s' (shown (Ok (whole_keys (view (moment next i t))))) /\
    idle sys s' (moment next (Datatypes.S i) t).
Proof. intros T tgt view between next Dev sys F e n i first t s Hi A L B W. eapply run; eauto using list_does. Qed.
Theorem C118_list_keys_fails : forall T tgt view between next, watched tgt view between next -> forall (sys : system T), one_of_four sys ->
  forall e n first t s, idle sys s t -> 8 <= first < 2 ^ 16 ->
  (forall j, (j < n)%nat -> asked view next first t j < room (view (moment next j t)) < 2 ^ 16) ->
  exists s', sync_wait_ends (coroutine (os_of sys tgt) (list_keys e n first)) s s' (Threw e) /\ idle sys s' (moment next n t).
Proof. intros T tgt view between next Dev sys F e n first t s Hi A B. apply (run T tgt sys F t _ _ (Err e) s Hi). eauto using list_fails. Qed.
Theorem C118_list_keys_too_many : forall T tgt view between next, watched tgt view between next -> forall (sys : system T), one_of_four sys ->
  forall e n i first t s, idle sys s t -> 8 <= first < 2 ^ 16 -> (Datatypes.S i < n)%nat ->
  (forall j, (j < i)%nat -> asked view next first t j < room (view (moment next j t)) < 2 ^ 16) ->
  2 ^ 16 <= room (view (moment next i t)) ->
  exists s' x, sync_wait_ends (coroutine (os_of sys tgt) (list_keys e n first)) s s' (Threw x) /\ idle sys s' (moment next (Datatypes.S i) t).
Proof.
  intros T tgt view between next Dev sys F e n i first t s Hi A L B W.
  destruct (list_too_many tgt view between next Dev (pads sys) e n i first t A L B W) as (x & D).
  destruct (run T tgt sys F t _ _ (Err x) s Hi D) as (s' & X & Y). eauto.
Qed.
(** As many attempts as there can be keys, and one more, are always enough. *)
Theorem C118_always_listed : forall T tgt view between next, watched tgt view between next -> forall (sys : system T), one_of_four sys ->
  forall e n most first t s, idle sys s t -> 8 <= first < 2 ^ 16 -> most <= 8190 ->
  (forall k, zlen (registered (view (moment next k t))) <= most) -> most < Z.of_nat n ->
  exists s' i, (i < n)%nat /\ sync_wait_ends (coroutine (os_of sys tgt) (list_keys e n first)) s s' (shown (Ok (whole_keys (view (moment next i t))))) /\
    idle sys s' (moment next (Datatypes.S i) t).
Proof.
  intros T tgt view between next Dev sys F e n most first t s Hi A M K N.
  destruct (list_always tgt view between next Dev (pads sys) e n most first t A M K N) as (i & L & D).
  destruct (run T tgt sys F t _ _ _ s Hi D) as (s' & X & Y). eauto.
Qed.

(** Whatever other hosts do: if they do less than 2^32 things, the same pr_generation means the same registrations. *)
Theorem C118_generation : forall actions st, pr_ok st -> zlen actions < 2 ^ 32 ->
  generation (after actions st) = generation st -> registered (after actions st) = registered st.
Proof. intros actions st P. apply generation_tells. apply P. Qed.
Theorem C118_generation_refuted : exists st actions, pr_ok st /\ zlen actions = 2 ^ 32 /\
  generation (after actions st) = generation st /\ registered (after actions st) <> registered st.
Proof.
  exists (PrState 5 [] None). assert (N : exists n, Z.of_nat n = 2 ^ 32) by (exists (Z.to_nat (2 ^ 32)); apply Z2Nat.id; lia). destruct N as [n N].
  exists (repeat (0%nat, RegisterIgnore 9) n). rewrite (wraps n 5 ltac:(lia) N). split.
  - unfold pr_ok. cbn [generation registered held map]. repeat split; try lia; constructor.
  - split; [unfold zlen; rewrite repeat_length; exact N|]. split; [reflexivity|discriminate].
Qed.
(** The holder of a reservation is registered: its key is among the keys. *)
Theorem C118_holder : forall actions st, consistent st -> consistent (after actions st).
Proof. exact after_consistent. Qed.
Theorem C118_holder_listed : forall st h ty, consistent st -> held st = Some (h, ty) -> all_registrants ty = false ->
  In (reservation_key st) (map snd (registered st)) /\ key_of h st = Some (reservation_key st).
Proof. exact holder_listed. Qed.

(** READ KEYS and READ RESERVATION until both are of the same generation: keys and reservation of one moment. *)
Theorem C118_snapshot : forall T tgt view between next, watched tgt view between next -> forall (sys : system T), one_of_four sys ->
  forall e n i t s, idle sys s t -> (forall t, zlen (between t) < 2 ^ 32) -> (i < n)%nat ->
  (forall j, (j < i)%nat -> generation (view (moment next (2 * j + 1) t)) <> generation (view (moment next (2 * j) t))) ->
  generation (view (moment next (2 * i + 1) t)) = generation (view (moment next (2 * i) t)) ->
  zlen (registered (view (moment next (2 * i) t))) <= 8190 ->
  let st := view (moment next (2 * i + 1) t) in
  exists s', sync_wait_ends (coroutine (os_of sys tgt) (snapshot e n)) s s' (shown (Ok (PList [whole_keys st; reservation_object (pads sys) st]))) /\
    idle sys s' (moment next (2 * i + 2) t).
Proof. intros T tgt view between next Dev sys F e n i t s Hi N L B W K st. eapply run; eauto using snapshot_one. Qed.
Theorem C118_snapshot_fails : forall T tgt view between next, watched tgt view between next -> forall (sys : system T), one_of_four sys ->
  forall e n t s, idle sys s t ->
  (forall j, (j < n)%nat -> generation (view (moment next (2 * j + 1) t)) <> generation (view (moment next (2 * j) t))) ->
  exists s', sync_wait_ends (coroutine (os_of sys tgt) (snapshot e n)) s s' (Threw e) /\ idle sys s' (moment next (2 * n) t).
Proof. intros T tgt view between next Dev sys F e n t s Hi B. apply (run T tgt sys F t _ _ (Err e) s Hi). eauto using snapshot_fails. Qed.

(** The logical units: all of the moment of the second command, or an exception if some were added in between. *)
Theorem C118_luns : forall T tgt luns next, lists_luns tgt luns next -> forall (sys : system T), one_of_four sys ->
  forall select t s, idle sys s t -> 0 <= select < 2 ^ 8 ->
  exists s', sync_wait_ends (coroutine (os_of sys tgt) (fetch_luns select true)) s s'
      (if zlen (luns (next t)) <=? Z.max 1 (zlen (luns t)) then shown (Ok (all_luns_shown (luns (next t)))) else Threw EInstruct) /\
    idle sys s' (next (next t)).
Proof.
  intros T tgt luns next Dev sys F select t s Hi S. pose proof (luns_does tgt luns next Dev (pads sys) select t S) as D.
  destruct (_ <=? _); exact (run T tgt sys F t _ _ _ s Hi D).
Qed.
Theorem C118_list_luns : forall T tgt luns next, lists_luns tgt luns next -> forall (sys : system T), one_of_four sys ->
  forall e n i select t s, idle sys s t -> 0 <= select < 2 ^ 8 -> (i < n)%nat ->
  (forall j, (j < i)%nat -> Z.max 1 (zlen (luns (moment next (2 * j) t))) < zlen (luns (moment next (2 * j + 1) t))) ->
  zlen (luns (moment next (2 * i + 1) t)) <= Z.max 1 (zlen (luns (moment next (2 * i) t))) ->
  exists s', sync_wait_ends (coroutine (os_of sys tgt) (list_luns e n select)) s s' (shown (Ok (all_luns_shown (luns (moment next (2 * i + 1) t))))) /\
    idle sys s' (moment next (2 * i + 2) t).
Proof. intros T tgt luns next Dev sys F e n i select t s Hi S L B W. eapply run; eauto using list_luns_does. Qed.
Theorem C118_list_luns_fails : forall T tgt luns next, lists_luns tgt luns next -> forall (sys : system T), one_of_four sys ->
  forall e n select t s, idle sys s t -> 0 <= select < 2 ^ 8 ->
  (forall j, (j < n)%nat -> Z.max 1 (zlen (luns (moment next (2 * j) t))) < zlen (luns (moment next (2 * j + 1) t))) ->
  exists s', sync_wait_ends (coroutine (os_of sys tgt) (list_luns e n select)) s s' (Threw e) /\ idle sys s' (moment next (2 * n) t).
Proof. intros T tgt luns next Dev sys F e n select t s Hi S B. apply (run T tgt sys F t _ _ (Err e) s Hi). eauto using list_luns_fails. Qed.

(** ** Examples *)

(** Host 1 holds a reservation; host 2 registers; host 3 registers and host 1 withdraws, which ends its reservation; host 2
    reserves. *)
Definition actions : list (list (nat * pr_action)) :=
  [[(2%nat, RegisterIgnore 34)]; [(3%nat, RegisterIgnore 51); (1%nat, Register 17 0)]; [(2%nat, MakeReservation 34 1)]].
Definition states : list pr_state :=
  [PrState 1 [(1%nat, 17)] (Some (1%nat, 5)); PrState 2 [(1%nat, 17); (2%nat, 34)] (Some (1%nat, 5)); PrState 4 [(2%nat, 34); (3%nat, 51)] None].
Definition last_state : pr_state := PrState 4 [(2%nat, 34); (3%nat, 51)] (Some (2%nat, 1)).
Definition example_view (t : nat) : pr_state := nth t states last_state.
Definition example_between (t : nat) : list (nat * pr_action) := nth t actions [].
Definition example_target : target nat := fun t cdb _ =>
  (Datatypes.S t, match interpret cdb with
        | Some (OpPrIn 0 alloc) => good (firstn (Z.to_nat alloc) (keys_data (generation (example_view t)) (map snd (registered (example_view t)))))
        | Some (OpPrIn 1 alloc) => good (firstn (Z.to_nat alloc) (reservation_data (example_view t)))
        | _ => good []
        end).
Example C118_watched_example : watched example_target example_view example_between Datatypes.S /\ (forall t, zlen (example_between t) < 2 ^ 32) /\
  consistent (example_view 0) /\ example_view 3 = last_state.
Proof.
  split; [|split; [|split; reflexivity]].
  - split.
    + intro t. destruct t as [|[|[|t]]]; [| | |destruct t]; (split; [|unfold zlen; cbn; lia]); unfold pr_ok; cbn [example_view states last_state nth generation registered held map fst];
        (split; [lia|]); (split; [repeat (constructor; [cbn; intuition lia|]); constructor|]); (split; [repeat (constructor; [cbn; lia|]); constructor|lia || exact Logic.I]).
    + intro t. destruct t as [|[|[|t]]]; [reflexivity|reflexivity|reflexivity|]. destruct t; reflexivity.
    + intros t cdb data alloc I. unfold example_target. rewrite I. reflexivity.
    + intros t cdb data alloc I. unfold example_target. rewrite I. reflexivity.
  - intro t. destruct t as [|[|[|t]]]; [| | |destruct t]; unfold zlen; cbn; lia.
Qed.
Definition example_linux {T} (t : T) : executer sgio (linux_world (sg_state T)) := executer_init 1 (LinuxWorld [] (t, []) None).
Definition example_run (tgt : target nat) (p : prog) :=
  match sync_wait 400 (coroutine (os_of (linux_system nat 3000) tgt) p) (example_linux 0%nat) with
  | Some (s, out) => Some (out, fst (l_dev (world s)))
  | None => None
  end.
Example C118_idle_example : forall t, idle (linux_system nat 3000) (example_linux t) t.
Proof. intro t. repeat split; cbn; try lia; eauto. Qed.
Example C118_run_example :
  example_run example_target (fetch_pr 0 8) = Some (shown (Ok (no_keys (example_view 1))), 2%nat) /\
  example_run example_target (fetch_pr 0 16) = Some (shown (Ok (whole_keys (example_view 0))), 1%nat) /\
  example_run example_target (list_keys EAttribute 3 8) = Some (shown (Ok (whole_keys (example_view 2))), 3%nat) /\
  example_run example_target (list_keys EAttribute 2 8) = Some (shown (Err EAttribute), 2%nat) /\
  example_run example_target (snapshot EAttribute 2) = Some (shown (Ok (PList [whole_keys last_state; reservation_object true last_state])), 4%nat) /\
  example_run example_target (snapshot EAttribute 1) = Some (shown (Err EAttribute), 2%nat).
Proof. vm_compute. repeat split. Qed.
(** The hypotheses of the theorems for these runs. *)
Example C118_listed_example :
  (forall j, (j < 2)%nat -> asked example_view Datatypes.S 8 0%nat j < room (example_view (moment Datatypes.S j 0%nat)) < 2 ^ 16) /\
  room (example_view (moment Datatypes.S 2 0%nat)) <= asked example_view Datatypes.S 8 0%nat 2 /\
  (forall k, zlen (registered (example_view (moment Datatypes.S k 0%nat))) <= 2).
Proof.
  split; [|split].
  - intros [|[|j]] Hj; [| |lia]; vm_compute; split; reflexivity || congruence.
  - vm_compute. congruence.
  - intro k. assert (E : moment Datatypes.S k 0%nat = k).
    { rewrite <- (Nat.add_0_r k) at 2. generalize 0%nat. induction k as [|k IH]; intro t; [reflexivity|]. cbn [moment]. rewrite IH. lia. }
    rewrite E. destruct k as [|[|[|k]]]; [| | |destruct k]; unfold zlen; cbn; lia.
Qed.
Example C118_snapshot_example :
  generation (example_view (moment Datatypes.S 1 0%nat)) <> generation (example_view (moment Datatypes.S 0 0%nat)) /\
  generation (example_view (moment Datatypes.S 3 0%nat)) = generation (example_view (moment Datatypes.S 2 0%nat)) /\
  reservation_key last_state = 34 /\ In 34 (map snd (registered last_state)).
Proof. vm_compute. repeat split; [discriminate|left; reflexivity]. Qed.
(** More keys than can be asked for. *)
Definition crowd : pr_state := PrState 3 (map (fun k => (k, 7)) (seq 0 8191)) None.
Definition crowd_target : target nat := fun t cdb _ =>
  (Datatypes.S t, match interpret cdb with
        | Some (OpPrIn 0 alloc) => good (firstn (Z.to_nat alloc) (keys_data (generation crowd) (map snd (registered crowd))))
        | Some (OpPrIn 1 alloc) => good (firstn (Z.to_nat alloc) (reservation_data crowd))
        | _ => good []
        end).
Example C118_too_many_example : watched crowd_target (fun _ => crowd) (fun _ => []) Datatypes.S /\ 2 ^ 16 <= room crowd.
Proof.
  assert (L : zlen (registered crowd) = 8191) by (unfold crowd, zlen; cbn [registered]; rewrite map_length, seq_length; reflexivity).
  split; [|unfold room; rewrite L; lia]. split.
  - intro t. split; [|rewrite L; lia]. unfold pr_ok. split; [cbn [crowd generation]; lia|]. unfold crowd. cbn [registered held]. split; [|split; [|exact Logic.I]].
    + rewrite map_map. cbn [fst]. rewrite map_id. apply seq_NoDup.
    + apply Forall_map. apply Forall_forall. intros k _. cbn [snd]. lia.
  - reflexivity.
  - intros t cdb data alloc I. unfold crowd_target. rewrite I. reflexivity.
  - intros t cdb data alloc I. unfold crowd_target. rewrite I. reflexivity.
Qed.
(** A second logical unit appears between the first two commands. *)
Definition example_luns (t : nat) : list Z := match t with 0%nat => [0] | 1%nat => [0; 2 ^ 48] | 2%nat => [0; 2 ^ 48] | _ => [2 ^ 48] end.
Definition luns_target : target nat := fun t cdb _ =>
  (Datatypes.S t, match interpret cdb with
        | Some (OpReportLuns _ alloc) => good (firstn (Z.to_nat alloc) (luns_data (example_luns t)))
        | _ => good []
        end).
Example C118_luns_example : lists_luns luns_target example_luns Datatypes.S /\
  example_run luns_target (fetch_luns 0 true) = Some (shown (Err EInstruct), 2%nat) /\
  example_run luns_target (list_luns EAttribute 2 0) = Some (shown (Ok (all_luns_shown [2 ^ 48])), 4%nat) /\
  example_run luns_target (list_luns EAttribute 1 0) = Some (shown (Err EAttribute), 2%nat).
Proof.
  split; [|vm_compute; repeat split].
  split.
  - intros [|[|[|t]]]; (split; [repeat constructor; lia|unfold zlen; cbn; lia]).
  - intros t cdb data select alloc I. unfold luns_target. rewrite I. reflexivity.
Qed.

(** Without the comparison of the generations the reservation may be that of a host whose key is not among the keys. *)
Theorem C118_unchecked_refuted : exists st actions, pr_ok st /\ consistent st /\
  ~ In (reservation_key (after actions st)) (map snd (registered st)) /\
  forall T tgt view between next, watched tgt view between next -> forall (sys : system T), one_of_four sys ->
  forall t s, idle sys s t -> view t = st -> between t = actions ->
  exists s', sync_wait_ends (coroutine (os_of sys tgt) keys_and_reservation) s s'
      (shown (Ok (PList [whole_keys st; reservation_object (pads sys) (after actions st)]))) /\ idle sys s' (next (next t)).
Proof.
  exists (PrState 1 [(1%nat, 17)] None), [(2%nat, RegisterIgnore 34); (2%nat, MakeReservation 34 3)].
  split; [unfold pr_ok; cbn [generation registered held map fst]; repeat split; try lia; repeat constructor; cbn; try lia; auto|]. split; [exact Logic.I|].
  split; [vm_compute; intros [A|A]; [discriminate A|exact A]|].
  intros T tgt view between next Dev sys F t s Hi V B. pose proof (both_does tgt view between next Dev (pads sys) t) as D.
  rewrite (w_next _ _ _ _ Dev t), V, B in D. exact (run T tgt sys F t _ _ _ s Hi D).
Qed.

(** All theorems at once: what is printed holds for each of them. *)
Definition all_theorems := (@C118_fetch, @C118_list_keys, @C118_list_keys_fails, @C118_list_keys_too_many, @C118_always_listed, @C118_generation,
  @C118_generation_refuted, @C118_holder, @C118_holder_listed, @C118_snapshot, @C118_snapshot_fails, @C118_luns, @C118_list_luns, @C118_list_luns_fails,
  @C118_unchecked_refuted).
Print Assumptions all_theorems.
