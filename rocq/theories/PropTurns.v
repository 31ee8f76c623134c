(** C115: hosts that take turns at a device with RESERVE and RELEASE. *)
From Coq Require Import String ZArith List Bool Lia PeanoNat.
From Verif Require Import Base Gen SpecGen Executer OsCommon OsLinux OsSolaris OsAix OsWin32 SpecSg SpecDrivers SpecSession Instruct Command
  CdbPrimary SpecDevice SpecCdb SpecExecute Sense SpecSense SpecPortable DiskFacts SpecReserve SpecAdaptive AdaptiveFacts SpecShared SharedFacts PropShared
  SpecTurns TurnsFacts.
Import ListNotations.
Local Open Scope string_scope.
Local Open Scope list_scope.
Local Open Scope Z_scope.

(** Any number of hosts with any programs, on systems of any kind, each between RESERVE and RELEASE: however their commands interleave,
    their programs run one after the other, each on the device as the one before left it; at most one is at work at any
    time, and it has the device; a host that did not get its turn met a device that another host had, each time it tried. *)
Theorem C115_one_by_one : forall S T (tgt : nat -> target T) (plain : nat -> target S) owner inner, reservable tgt plain owner inner ->
  forall lock unlock tries body count padded, (forall h, locks (lock h) /\ unlocks (unlock h)) -> (forall h, no_locks (body h)) ->
  forall t, owner t = None -> forall trace t' ps',
  together tgt padded t (crowd count (fun h => taking_turn (lock h) (unlock h) (tries h) (body h))) trace t' ps' ->
  exists done s, one_by_one plain padded body (inner t) done s /\ NoDup (map fst done) /\
    (forall h r, In (h, r) done -> (h < count)%nat /\ ended (ps' h) = Some r) /\
    (forall h r, (h < count)%nat -> ended (ps' h) = Some r -> In (h, r) done \/
       r = Err EAsiSCSI /\ ~ In h (map fst done) /\ length (met_by h trace) = Datatypes.S (tries h) /\ Forall (taken owner h) (met_by h trace)) /\
    (forall h, at_work (ps' h) -> owner t' = Some h) /\
    (forall h, owner t' = Some h -> ended (ps' h) = None) /\
    (owner t' = None -> inner t' = s).
Proof. exact @turn_by_turn. Qed.

(** On the system of every host sync_wait ends as its program does. *)
Theorem C115_every_host : forall T (tgt : nat -> target T) lock unlock tries body count padded t trace t' ps' h
    (sys : system (T * list T)) r y s, (h < count)%nat ->
  together tgt padded t (crowd count (fun h => taking_turn (lock h) (unlock h) (tries h) (body h))) trace t' ps' ->
  ended (ps' h) = Some r -> one_of_four sys -> pads sys = padded h -> idle sys s (y, met_by h trace) ->
  exists s' last, sync_wait_ends (coroutine (os_of sys (disturbed (tgt h))) (taking_turn (lock h) (unlock h) (tries h) (body h))) s s' (shown r) /\
    idle sys s' (last, []).
Proof.
  intros T tgt lock unlock tries body count padded t trace t' ps' h sys r y s L G E F P I.
  destruct (hosts_together _ _ _ _ _ _ _ _ h sys r y s G E F P I) as (s' & last & A & B). exists s', last. split; [|exact B].
  unfold crowd in A. destruct (Nat.ltb_spec h count); [exact A|lia].
Qed.

(** A host that waits for its turn, or ends it, can always send its next command. *)
Theorem C115_never_stuck : forall S T (tgt : nat -> target T) (plain : nat -> target S) owner inner, reservable tgt plain owner inner ->
  forall lock unlock tries body count padded, (forall h, locks (lock h) /\ unlocks (unlock h)) -> (forall h, no_locks (body h)) ->
  forall t, owner t = None -> forall trace t' ps' h,
  together tgt padded t (crowd count (fun h => taking_turn (lock h) (unlock h) (tries h) (body h))) trace t' ps' ->
  ended (ps' h) = None -> ~ at_work (ps' h) -> exists t1 p1, moves (tgt h) (padded h) t' (ps' h) [t'] t1 p1.
Proof. exact @turns_move. Qed.

(** Hosts that read a block and write it back changed lose no change, though they use WRITE (compare C96_write_refuted). *)
Theorem C115_changes : forall S T (tgt : nat -> target T) (plain : nat -> target S) owner inner content bs capacity,
  reservable tgt plain owner inner -> (forall h, block_device (plain h) content bs capacity) -> 1 <= bs < 2 ^ 31 -> capacity <= 2 ^ 64 ->
  forall lba f rd lock unlock tries count padded, 0 <= lba < capacity ->
  (forall h b, zlen b = bs -> zlen (f h b) = bs) -> (forall h, read_of (rd h) lba 1 bs /\ proper (rd h) /\ arguments_fit (rd h)) ->
  (forall h, locks (lock h) /\ unlocks (unlock h)) ->
  forall t trace t' ps', owner t = None ->
  together tgt padded t (crowd count (fun h => taking_turn (lock h) (unlock h) (tries h) (overwriting (rd h) lba bs (f h)))) trace t' ps' ->
  exists order, NoDup order /\ (forall h, In h order <-> (h < count)%nat /\ ps' h = Return PNone) /\
    (forall h e, ps' h = Fail e -> e = EAsiSCSI /\ length (met_by h trace) = Datatypes.S (tries h) /\ Forall (taken owner h) (met_by h trace)) /\
    (owner t' = None -> content (inner t') lba = changed f order (content (inner t) lba) /\
       forall k, 0 <= k < capacity -> k <> lba -> content (inner t') k = content (inner t) k).
Proof. exact changes_in_turn. Qed.

(** A host that stops without RELEASE keeps all others out for good: their RELEASE succeeds without effect, and however often they
    try RESERVE they end with AsiSCSIError. *)
Theorem C115_kept_out : forall S T (tgt : nat -> target T) (plain : nat -> target S) owner inner, reservable tgt plain owner inner ->
  forall n h x padded lock unlock body t, locks lock -> unlocks unlock -> owner t = Some x -> x <> h ->
  exists t', does (tgt h) padded t (Do unlock (fun _ => taking_turn lock unlock n body)) t' (Err EAsiSCSI) /\ inner t' = inner t /\ owner t' = Some x.
Proof. exact @kept_out. Qed.

(** A host that does not RESERVE cannot disturb: what it sends to read or change blocks while another host has the device
    raises AsiSCSIError and has no effect. *)
Theorem C115_shut_out : forall S T (tgt : nat -> target T) (plain : nat -> target S) owner inner, reservable tgt plain owner inner ->
  forall h x padded c k t, proper c -> issued c = Ok k -> moderate k -> media_op (meaning c) -> owner t = Some x -> x <> h ->
  exists t', does (tgt h) padded t (Do c finish) t' (Err EAsiSCSI) /\ inner t' = inner t /\ owner t' = Some x.
Proof. exact @shut_out. Qed.

(** ** Examples *)

(** Any device with RESERVE and RELEASE in front of it. *)
Definition lockable {S} (plain : nat -> target S) (h : nat) : target (option nat * S) := fun t cdb data =>
  match interpret cdb with
  | Some OpReserve6 | Some (OpReserve10 0 0 0 0) => if open_to h (fst t) then ((Some h, snd t), good []) else (t, conflict)
  | Some OpRelease6 | Some (OpRelease10 0 0 0 0) => if open_to h (fst t) then ((None, snd t), good []) else (t, good [])
  | Some (OpReserve10 _ _ _ _) | Some (OpRelease10 _ _ _ _) => (t, good [])
  | _ => if open_to h (fst t) then let (s, a) := plain h (snd t) cdb data in ((fst t, s), a) else (t, conflict)
  end.
Example C115_device_example : forall S (plain : nat -> target S), reservable (lockable plain) plain fst snd.
Proof.
  intros S plain. constructor.
  - intros h t cdb data op I R. unfold lockable. rewrite I. destruct R as [->| ->]; destruct (open_to h (fst t)); eexists; split; eauto; split; reflexivity.
  - intros h t cdb data op I R. unfold lockable. rewrite I. destruct R as [->| ->]; destruct (open_to h (fst t)); eexists; split; eauto; split; reflexivity.
  - intros h t cdb data op I R O. unfold lockable. rewrite I. destruct op; try contradiction R; rewrite O;
      destruct (plain h (snd t) cdb data) as [s a]; eexists; split; eauto; split; reflexivity.
  - intros h t cdb data op I R O. unfold lockable. rewrite I. destruct op; try contradiction R; rewrite O; eexists; split; eauto; split; reflexivity.
Qed.

(** The disk and the changes of C96, with WRITE.  Host 0 has the device when host 1 tries; host 1 then
    tries again, finds the device free, and changes what host 0 wrote. *)
Definition turn_lock (h : nat) : command := if Nat.eqb h 0 then Reserve6 else Reserve10 0.
Definition turn_unlock (h : nat) : command := if Nat.eqb h 0 then Release6 else Release10 (-1).
Example C115_programs_example : (forall h, locks (turn_lock h) /\ unlocks (turn_unlock h)) /\
  forall h, no_locks (overwriting (example_reader h) 0 4 (example_change h)).
Proof.
  split.
  - intro h. unfold turn_lock, turn_unlock. destruct (Nat.eqb h 0); split; try (left; reflexivity); right; eexists; (split; [|reflexivity]); lia.
  - intro h. unfold example_reader. destruct (Nat.eqb h 0); cbn; (split; [exact Logic.I|]); intros [[]|e]; cbn; auto;
      (split; [exact Logic.I|]); intros [v|e]; exact Logic.I.
Qed.
Definition turn_disk := lockable example_disk.
Definition turn_crowd : nat -> prog :=
  crowd 2 (fun h => taking_turn (turn_lock h) (turn_unlock h) 1 (overwriting (example_reader h) 0 4 (example_change h))).
Definition turn_trace : list (nat * (option nat * bytes)) :=
  [(0%nat, (None, [5; 0; 0; 0])); (0%nat, (Some 0%nat, [5; 0; 0; 0])); (1%nat, (Some 0%nat, [5; 0; 0; 0]));
   (0%nat, (Some 0%nat, [5; 0; 0; 0])); (0%nat, (Some 0%nat, [6; 255; 0; 0])); (1%nat, (None, [6; 255; 0; 0]));
   (1%nat, (Some 1%nat, [6; 255; 0; 0])); (1%nat, (Some 1%nat, [6; 255; 0; 0])); (1%nat, (Some 1%nat, [8; 255; 255; 0]))].
Lemma turn_move : forall h padded t c next k t1 a x ps trace t' ps', proper c -> issued c = Ok k -> moderate k ->
  turn_disk h t (command_of k) (data_out k) = (t1, a) -> ordinary a -> seen (padded h) c k a = x -> ps h = Do c next ->
  together turn_disk padded t1 (replaced h (next x) ps) trace t' ps' -> together turn_disk padded t ps ((h, t) :: trace) t' ps'.
Proof.
  intros. subst x. change ((h, t) :: trace) with (map (pair h) [t] ++ trace). eapply tg_step; [|eassumption].
  match goal with E : ps h = _ |- _ => rewrite E end. eapply mv_command; eauto.
Qed.
Lemma turn_inside : forall h padded t c next out k t1 a x ps trace t' ps', proper c -> issued c = Ok k -> moderate k ->
  turn_disk h t (command_of k) (data_out k) = (t1, a) -> ordinary a -> seen (padded h) c k a = x -> ps h = Call (Do c next) out ->
  together turn_disk padded t1 (replaced h (Call (next x) out) ps) trace t' ps' -> together turn_disk padded t ps ((h, t) :: trace) t' ps'.
Proof.
  intros. subst x. change ((h, t) :: trace) with (map (pair h) [t] ++ trace). eapply tg_step; [|eassumption].
  match goal with E : ps h = _ |- _ => rewrite E end. apply mv_inside. eapply mv_command; eauto.
Qed.
Lemma turn_back : forall h padded t v out ps trace t' ps', ps h = Call (Return v) out ->
  together turn_disk padded t (replaced h (out (Ok v)) ps) trace t' ps' -> together turn_disk padded t ps trace t' ps'.
Proof.
  intros h padded t v out ps trace t' ps' E G. change trace with (map (pair h) (@nil (option nat * bytes)) ++ trace). eapply tg_step; [|exact G].
  rewrite E. apply mv_back.
Qed.
Example C115_interleaving_example : forall padded, exists ps', together turn_disk padded (None, [5; 0; 0; 0]) turn_crowd turn_trace (None, [8; 255; 255; 0]) ps' /\
  forall h, ps' h = Return PNone.
Proof.
  assert (G : forall d, ordinary (good d)) by (intro d; apply ordinary_good). pose proof conflict_ordinary as C.
  intros padded. eexists. split.
  - unfold turn_trace.
    eapply (turn_move 0%nat) with (x := Ok PNone) (c := Reserve6); [exact Logic.I|vm_compute; reflexivity|cbn; lia|vm_compute; reflexivity|apply G|destruct (padded 0%nat); vm_compute; reflexivity|reflexivity|].
    eapply (turn_inside 0%nat) with (x := Ok (PBytes [5; 0; 0; 0])) (c := Read10 0 1 4 []); [cbn; repeat split; try lia; constructor|vm_compute; reflexivity|cbn; lia|vm_compute; reflexivity|apply G|destruct (padded 0%nat); vm_compute; reflexivity|reflexivity|].
    eapply (turn_move 1%nat) with (x := Err EAsiSCSI) (c := Reserve10 0); [exact Logic.I|vm_compute; reflexivity|cbn; lia|vm_compute; reflexivity|apply C|destruct (padded 1%nat); vm_compute; reflexivity|reflexivity|].
    eapply (turn_inside 0%nat) with (x := Ok PNone) (c := Write16 0 [6; 255; 0; 0] 4 []); [cbn; repeat split; try lia; constructor|vm_compute; reflexivity|cbn; lia|vm_compute; reflexivity|apply G|destruct (padded 0%nat); vm_compute; reflexivity|reflexivity|].
    eapply (turn_back 0%nat); [reflexivity|].
    eapply (turn_move 0%nat) with (x := Ok PNone) (c := Release6); [exact Logic.I|vm_compute; reflexivity|cbn; lia|vm_compute; reflexivity|apply G|destruct (padded 0%nat); vm_compute; reflexivity|reflexivity|].
    eapply (turn_move 1%nat) with (x := Ok PNone) (c := Reserve10 0); [exact Logic.I|vm_compute; reflexivity|cbn; lia|vm_compute; reflexivity|apply G|destruct (padded 1%nat); vm_compute; reflexivity|reflexivity|].
    eapply (turn_inside 1%nat) with (x := Ok (PBytes [6; 255; 0; 0])) (c := Read16 0 1 4 []); [cbn; repeat split; try lia; constructor|vm_compute; reflexivity|cbn; lia|vm_compute; reflexivity|apply G|destruct (padded 1%nat); vm_compute; reflexivity|reflexivity|].
    eapply (turn_inside 1%nat) with (x := Ok PNone) (c := Write16 0 [8; 255; 255; 0] 4 []); [cbn; repeat split; try lia; constructor|vm_compute; reflexivity|cbn; lia|vm_compute; reflexivity|apply G|destruct (padded 1%nat); vm_compute; reflexivity|reflexivity|].
    eapply (turn_back 1%nat); [reflexivity|].
    eapply (turn_move 1%nat) with (x := Ok PNone) (c := Release10 (-1)); [exact Logic.I|vm_compute; reflexivity|cbn; lia|vm_compute; reflexivity|apply G|destruct (padded 1%nat); vm_compute; reflexivity|reflexivity|].
    apply tg_nil.
  - intro h. destruct h as [|[|h]]; reflexivity.
Qed.
(** Host 1 on Linux, with what it met. *)
Definition turn_linux : executer sgio (linux_world (sg_state ((option nat * bytes) * list (option nat * bytes)))) :=
  executer_init 1 (LinuxWorld [] (((None, []), met_by 1 turn_trace), []) None).
Example C115_every_host_example : idle (linux_system _ 3000) turn_linux ((None, []), met_by 1 turn_trace) /\
  match sync_wait 300 (coroutine (os_of (linux_system _ 3000) (disturbed (turn_disk 1))) (turn_crowd 1%nat)) turn_linux with
  | Some (s, out) => out = shown (Ok PNone) /\ fst (l_dev (world s)) = ((None, [8; 255; 255; 0]), [])
  | None => False
  end.
Proof. split; [repeat split; cbn; try lia; eauto|]. vm_compute. auto. Qed.
Example C115_changes_example : changed example_change [0%nat; 1%nat] [5; 0; 0; 0] = [8; 255; 255; 0].
Proof. reflexivity. Qed.
(** Host 0 has stopped while it has the device. *)
Example C115_kept_out_example : match sync_wait 300 (coroutine (os_of (linux_system _ 3000) (turn_disk 1))
    (Do (Release10 0) (fun _ => taking_turn (Reserve10 0) (Release10 0) 3 (Return PNone))))
    (executer_init 1 (LinuxWorld [] ((Some 0%nat, [5; 0; 0; 0]), []) None)) with
  | Some (s, out) => out = shown (Err EAsiSCSI) /\ fst (l_dev (world s)) = (Some 0%nat, [5; 0; 0; 0])
  | None => False
  end.
Proof. vm_compute. auto. Qed.
Example C115_shut_out_example : media_op (meaning (Write16 0 [9; 9; 9; 9] 4 [])) /\
  match sync_wait 300 (coroutine (os_of (linux_system _ 3000) (turn_disk 1)) (Do (Write16 0 [9; 9; 9; 9] 4 []) finish))
    (executer_init 1 (LinuxWorld [] ((Some 0%nat, [5; 0; 0; 0]), []) None)) with
  | Some (s, out) => out = shown (Err EAsiSCSI) /\ fst (l_dev (world s)) = (Some 0%nat, [5; 0; 0; 0])
  | None => False
  end.
Proof. split; [exact Logic.I|]. vm_compute. auto. Qed.

(** All theorems at once: what is printed holds for each of them. *)
Definition all_theorems := (@C115_one_by_one, @C115_every_host, @C115_never_stuck, @C115_changes, @C115_kept_out, @C115_shut_out).
Print Assumptions all_theorems.
