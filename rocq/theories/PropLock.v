(** C119: a lock that hosts keep in a block with COMPARE AND WRITE. *)
From Coq Require Import String ZArith List Bool Lia PeanoNat.
From Verif Require Import Base Gen SpecGen Executer OsCommon OsLinux OsSolaris OsAix OsWin32 SpecSg SpecDrivers SpecSession Instruct Command
  CdbPrimary SpecDevice SpecCdb SpecExecute Sense SpecSense SpecPortable DiskFacts SpecReserve SpecAdaptive AdaptiveFacts SpecShared SharedFacts PropShared
  SpecTurns SpecTakeover SpecLock LockFacts.
Import ListNotations.
Local Open Scope string_scope.
Local Open Scope list_scope.
Local Open Scope Z_scope.

(** Any number of hosts, on systems of any kind, each with any program that reads and writes other blocks than the lock, between
    taking the lock and giving it back.  However their commands interleave: their programs run one after the other, each on the blocks as
    the one before left them; the block of the lock tells who has it, and a host is at work only while it does, so at most one
    is; a host that did not get the lock met it in the hands of another one each time it tried. *)
Theorem C119_one_by_one : forall T (tgt : nat -> target T) content bs capacity sense, compare_disk tgt content bs capacity sense ->
  1 <= bs < 2 ^ 31 -> capacity <= 2 ^ 64 -> forall lba, 0 <= lba < capacity ->
  forall free mark tries body count padded, marks bs free mark count -> (forall h, elsewhere bs capacity lba (body h)) ->
  forall t, content t lba = free -> forall trace t' ps',
  together tgt padded t (crowd count (fun h => locking lba bs free (mark h) (tries h) (body h))) trace t' ps' ->
  exists done d, in_order bs capacity body (content t) done d /\ NoDup (map fst done) /\
    (forall h r, In (h, r) done -> (h < count)%nat /\ ended (ps' h) = Some r) /\
    (forall h r, (h < count)%nat -> ended (ps' h) = Some r -> In (h, r) done \/
       r = Err (EAsiCheckCondition (pad 255 sense)) /\ ~ In h (map fst done) /\ length (met_by h trace) = Datatypes.S (tries h) /\
       Forall (fun t => locked_by_other (content t lba) mark count h) (met_by h trace)) /\
    (content t' lba = free \/ exists h, (h < count)%nat /\ content t' lba = mark h /\ ended (ps' h) = None) /\
    (forall h, at_work (ps' h) -> (h < count)%nat /\ content t' lba = mark h) /\
    (content t' lba = free -> forall k, 0 <= k < capacity -> content t' k = d k).
Proof. exact @under_lock. Qed.

(** No host waits for a system call that does not come back: as long as its program has not ended it can go on. *)
Theorem C119_never_stuck : forall T (tgt : nat -> target T) content bs capacity sense, compare_disk tgt content bs capacity sense ->
  1 <= bs < 2 ^ 31 -> capacity <= 2 ^ 64 -> forall lba, 0 <= lba < capacity ->
  forall free mark tries body count padded, marks bs free mark count -> (forall h, elsewhere bs capacity lba (body h)) ->
  forall t, content t lba = free -> forall trace t' ps' h,
  together tgt padded t (crowd count (fun h => locking lba bs free (mark h) (tries h) (body h))) trace t' ps' ->
  ended (ps' h) = None -> exists met t1 p1, moves (tgt h) (padded h) t' (ps' h) met t1 p1.
Proof. exact @lock_moves. Qed.

(** On the system of every host sync_wait ends as its program does. *)
Theorem C119_every_host : forall T (tgt : nat -> target T) lba bs free mark tries body count padded t trace t' ps' h
    (sys : system (T * list T)) r y s, (h < count)%nat ->
  together tgt padded t (crowd count (fun h => locking lba bs free (mark h) (tries h) (body h))) trace t' ps' ->
  ended (ps' h) = Some r -> one_of_four sys -> pads sys = padded h -> idle sys s (y, met_by h trace) ->
  exists s' last, sync_wait_ends (coroutine (os_of sys (disturbed (tgt h))) (locking lba bs free (mark h) (tries h) (body h))) s s' (shown r) /\
    idle sys s' (last, []).
Proof.
  intros T tgt lba bs free mark tries body count padded t trace t' ps' h sys r y s L G E F P I.
  destruct (hosts_together _ _ _ _ _ _ _ _ h sys r y s G E F P I) as (s' & last & A & B). exists s', last. split; [|exact B].
  unfold crowd in A. destruct (Nat.ltb_spec h count); [exact A|lia].
Qed.

(** Hosts that read a block and write it back changed lose no change, though they use WRITE (compare C96_write_refuted). *)
Theorem C119_changes : forall T (tgt : nat -> target T) content bs capacity sense, compare_disk tgt content bs capacity sense ->
  1 <= bs < 2 ^ 31 -> capacity <= 2 ^ 64 -> forall lba block f rd free mark tries count padded,
  0 <= lba < capacity -> 0 <= block < capacity -> lba <> block -> marks bs free mark count ->
  (forall h b, zlen b = bs -> zlen (f h b) = bs) -> (forall h, read_of (rd h) block 1 bs /\ proper (rd h) /\ arguments_fit (rd h)) ->
  forall t trace t' ps', content t lba = free ->
  together tgt padded t (crowd count (fun h => locking lba bs free (mark h) (tries h) (overwriting (rd h) block bs (f h)))) trace t' ps' ->
  exists order, NoDup order /\ (forall h, In h order <-> (h < count)%nat /\ ps' h = Return PNone) /\
    (forall h e, (h < count)%nat -> ps' h = Fail e -> e = EAsiCheckCondition (pad 255 sense) /\
       length (met_by h trace) = Datatypes.S (tries h) /\ Forall (fun t => locked_by_other (content t lba) mark count h) (met_by h trace)) /\
    (content t' lba = free -> content t' block = changed f order (content t block) /\
       forall k, 0 <= k < capacity -> k <> block -> content t' k = content t k).
Proof. exact locked_changes. Qed.

(** A host that stops while it has the lock keeps all others out for good: however often they try they end with
    AsiCheckConditionError, without having run anything. *)
Theorem C119_kept_out : forall T (tgt : nat -> target T) content bs capacity sense, compare_disk tgt content bs capacity sense ->
  1 <= bs < 2 ^ 31 -> capacity <= 2 ^ 64 -> forall lba free mine, 0 <= lba < capacity -> zlen free = bs -> zlen mine = bs ->
  forall n h padded body t, content t lba <> free ->
  exists t', does (tgt h) padded t (locking lba bs free mine n body) t' (Err (EAsiCheckCondition (pad 255 sense))) /\
    forall k, 0 <= k < capacity -> content t' k = content t k.
Proof. exact @lock_kept. Qed.

(** A host cannot give back the lock of another one with its own mark: nothing changes and AsiCheckConditionError is raised. *)
Theorem C119_foreign_key : forall T (tgt : nat -> target T) content bs capacity sense, compare_disk tgt content bs capacity sense ->
  1 <= bs < 2 ^ 31 -> capacity <= 2 ^ 64 -> forall lba free mine, 0 <= lba < capacity -> zlen free = bs -> zlen mine = bs ->
  forall h padded result t, content t lba <> mine ->
  exists t', does (tgt h) padded t (unlocking lba bs free mine result) t' (Err (EAsiCheckCondition (pad 255 sense))) /\
    forall k, 0 <= k < capacity -> content t' k = content t k.
Proof. exact @foreign_key. Qed.

(** With the whole of it in try, and WRITE in finally, the lock does not hold: on every such disk there is a run of three hosts in
    which hosts 0 and 2 succeed, and the change of host 0 is lost, because host 1, who did not get the lock, gave it back. *)
Theorem C119_careless_refuted : forall T (tgt : nat -> target T) content bs capacity sense, compare_disk tgt content bs capacity sense ->
  1 <= bs < 2 ^ 31 -> capacity <= 2 ^ 64 -> forall lba block f rd free mark padded,
  0 <= lba < capacity -> 0 <= block < capacity -> lba <> block -> marks bs free mark 3 ->
  (forall h b, zlen b = bs -> zlen (f h b) = bs) -> (forall h, read_of (rd h) block 1 bs /\ proper (rd h) /\ arguments_fit (rd h)) ->
  forall t, content t lba = free ->
  exists trace t' ps', together tgt padded t (crowd 3 (fun h => careless lba bs free (mark h) (overwriting (rd h) block bs (f h)))) trace t' ps' /\
    ps' 0%nat = Return PNone /\ ps' 1%nat = Fail (EAsiCheckCondition (pad 255 sense)) /\ ps' 2%nat = Return PNone /\
    content t' lba = free /\ content t' block = f 2%nat (content t block).
Proof. exact careless_hosts. Qed.

(** ** Examples *)

(** A disk of two blocks of four bytes. *)
Definition block_at (t : list bytes) (k : Z) : bytes := pad 4 (nth (Z.to_nat k) t []).
Definition stored (f : Z -> bytes) : list bytes := [f 0; f 1].
Definition small_disk (_ : nat) : target (list bytes) := fun t cdb data =>
  match interpret cdb with
  | Some (OpRead lba n _) => (t, good (blocks (block_at t) lba (Z.to_nat n)))
  | Some (OpWrite lba n _) => (stored (written 4 lba n data (block_at t)), good [])
  | Some (OpCompareAndWrite lba n _) =>
      if same_bytes (blocks (block_at t) lba (Z.to_nat n)) (firstn (Z.to_nat (n * 4)) data)
      then (stored (written 4 lba n (skipn (Z.to_nat (n * 4)) data) (block_at t)), good [])
      else (t, rejection example_sense)
  | _ => (t, good [])
  end.
Lemma stored_block : forall f k, 0 <= k < 2 -> zlen (f k) = 4 -> block_at (stored f) k = f k.
Proof.
  intros f k K Zk. assert (X : block_at (stored f) k = pad 4 (f k)).
  { assert (Y : k = 0 \/ k = 1) by lia. destruct Y as [->| ->]; reflexivity. }
  rewrite X. replace 4%nat with (length (f k)) by (unfold zlen in Zk; lia). apply pad_exact.
Qed.
Lemma written_length : forall lba n data t k, 0 <= lba -> zlen data = n * 4 -> zlen (written 4 lba n data (block_at t) k) = 4.
Proof.
  intros lba n data t k L0 Zd. unfold written. destruct ((lba <=? k) && (k <? lba + n)) eqn:E.
  - apply andb_true_iff in E. destruct E as [E1 E2]. apply Z.leb_le in E1. apply Z.ltb_lt in E2.
    unfold slice, zlen in *. rewrite firstn_length, skipn_length. lia.
  - unfold block_at, zlen. rewrite pad_length. reflexivity.
Qed.
Example C119_disk_example : compare_disk small_disk block_at 4 2 example_sense.
Proof.
  constructor.
  - intro h. constructor.
    + intros t k _. unfold zlen, block_at. rewrite pad_length. reflexivity.
    + intros t cdb data lba n f I _ L N C. exists t. unfold small_disk. rewrite I. auto.
    + intros t cdb data lba n f I _ L N C Zd. eexists. unfold small_disk. rewrite I. split; [reflexivity|].
      intros k K. apply stored_block; [exact K|]. apply written_length; assumption.
  - split; [|reflexivity]. split; [repeat constructor; unfold byte_ok; lia|]. cbn. intros [H|H]; discriminate H.
  - intros h t cdb data lba n f I _ L N C Zd equal. unfold equal, small_disk. rewrite I.
    destruct (same_bytes _ _); eexists; (split; [reflexivity|]); [|reflexivity].
    intros k K. apply stored_block; [exact K|]. apply written_length; [exact L|].
    unfold zlen in *. rewrite skipn_length. lia.
Qed.

(** Block 0 is the lock; host [h] writes its number into it. *)
Definition example_free : bytes := [0; 0; 0; 0].
Definition example_mark (h : nat) : bytes := [1; Z.of_nat h; 255; 255].
Definition block_reader (h : nat) : command := if Nat.eqb h 0 then Read10 1 1 4 [] else Read16 1 1 4 [].
Example C119_marks_example : marks 4 example_free example_mark 3.
Proof.
  constructor; try reflexivity.
  - intros h _ H. discriminate H.
  - intros h x _ _ H. unfold example_mark in H. assert (X : Z.of_nat h = Z.of_nat x) by congruence. lia.
Qed.
Example C119_readers_example : forall h, read_of (block_reader h) 1 1 4 /\ proper (block_reader h) /\ arguments_fit (block_reader h).
Proof.
  intro h. unfold block_reader. destruct (Nat.eqb h 0); (split; [cbn; auto|]); (split; [cbn; repeat split; try lia; constructor|]);
    cbn; unfold settings_fit, setting; cbn; repeat split; try lia; repeat constructor; cbn; lia.
Qed.
Example C119_body_example : forall h, elsewhere 4 2 0 (overwriting (block_reader h) 1 4 (example_change h)).
Proof.
  intro h. apply change_elsewhere; try lia; [apply C119_readers_example|]. intros b. apply (proj1 C96_programs_example h).
Qed.
(** Host 0 takes the lock and reads; host 1 is told MISCOMPARE; host 0 writes and gives the lock back; host 1 takes it, reads, writes and gives it back. *)
Definition lock_crowd : nat -> prog :=
  crowd 3 (fun h => locking 0 4 example_free (example_mark h) 1 (overwriting (block_reader h) 1 4 (example_change h))).
Definition lock_trace : list (nat * list bytes) :=
  [(0%nat, [[0; 0; 0; 0]; [5; 0; 0; 0]]); (0%nat, [[1; 0; 255; 255]; [5; 0; 0; 0]]); (1%nat, [[1; 0; 255; 255]; [5; 0; 0; 0]]);
   (0%nat, [[1; 0; 255; 255]; [5; 0; 0; 0]]); (0%nat, [[1; 0; 255; 255]; [6; 255; 0; 0]]); (1%nat, [[0; 0; 0; 0]; [6; 255; 0; 0]]);
   (1%nat, [[1; 1; 255; 255]; [6; 255; 0; 0]]); (1%nat, [[1; 1; 255; 255]; [6; 255; 0; 0]]); (1%nat, [[1; 1; 255; 255]; [8; 255; 255; 0]])].
Lemma lock_move : forall h padded t c next k t1 a x ps trace t' ps', proper c -> issued c = Ok k -> moderate k ->
  small_disk h t (command_of k) (data_out k) = (t1, a) -> ordinary a -> seen (padded h) c k a = x -> ps h = Do c next ->
  together small_disk padded t1 (replaced h (next x) ps) trace t' ps' -> together small_disk padded t ps ((h, t) :: trace) t' ps'.
Proof.
  intros. subst x. change ((h, t) :: trace) with (map (pair h) [t] ++ trace). eapply tg_step; [|eassumption].
  match goal with E : ps h = _ |- _ => rewrite E end. eapply mv_command; eauto.
Qed.
Lemma lock_inside : forall h padded t c next out k t1 a x ps trace t' ps', proper c -> issued c = Ok k -> moderate k ->
  small_disk h t (command_of k) (data_out k) = (t1, a) -> ordinary a -> seen (padded h) c k a = x -> ps h = Call (Do c next) out ->
  together small_disk padded t1 (replaced h (Call (next x) out) ps) trace t' ps' -> together small_disk padded t ps ((h, t) :: trace) t' ps'.
Proof.
  intros. subst x. change ((h, t) :: trace) with (map (pair h) [t] ++ trace). eapply tg_step; [|eassumption].
  match goal with E : ps h = _ |- _ => rewrite E end. apply mv_inside. eapply mv_command; eauto.
Qed.
Lemma lock_back : forall h padded t v out ps trace t' ps', ps h = Call (Return v) out ->
  together small_disk padded t (replaced h (out (Ok v)) ps) trace t' ps' -> together small_disk padded t ps trace t' ps'.
Proof.
  intros h padded t v out ps trace t' ps' E G. change trace with (map (pair h) (@nil (list bytes)) ++ trace). eapply tg_step; [|exact G].
  rewrite E. apply mv_back.
Qed.
Example C119_interleaving_example : forall padded, exists ps',
  together small_disk padded [[0; 0; 0; 0]; [5; 0; 0; 0]] lock_crowd lock_trace [[0; 0; 0; 0]; [8; 255; 255; 0]] ps' /\
  ps' 0%nat = Return PNone /\ ps' 1%nat = Return PNone /\ ended (ps' 2%nat) = None.
Proof.
  assert (S : conforming_sense example_sense).
  { split; [repeat constructor; unfold byte_ok; lia|]. cbn. intros [H|H]; discriminate H. }
  assert (G : forall d, ordinary (good d)) by (intro d; apply ordinary_good).
  assert (J : ordinary (rejection example_sense)) by (split; [reflexivity|]; split; [exact S|]; right; left; split; reflexivity).
  intros padded. eexists. split.
  - unfold lock_trace.
    eapply (lock_move 0%nat) with (x := Ok PNone) (c := CompareAndWrite 0 [0; 0; 0; 0; 1; 0; 255; 255] 1 4 []); [cbn; repeat split; try lia; constructor|vm_compute; reflexivity|cbn; lia|vm_compute; reflexivity|apply G|destruct (padded 0%nat); vm_compute; reflexivity|reflexivity|].
    eapply (lock_inside 0%nat) with (x := Ok (PBytes [5; 0; 0; 0])) (c := Read10 1 1 4 []); [cbn; repeat split; try lia; constructor|vm_compute; reflexivity|cbn; lia|vm_compute; reflexivity|apply G|destruct (padded 0%nat); vm_compute; reflexivity|reflexivity|].
    eapply (lock_move 1%nat) with (x := Err (EAsiCheckCondition (pad 255 example_sense))) (c := CompareAndWrite 0 [0; 0; 0; 0; 1; 1; 255; 255] 1 4 []); [cbn; repeat split; try lia; constructor|vm_compute; reflexivity|cbn; lia|vm_compute; reflexivity|exact J|destruct (padded 1%nat); vm_compute; reflexivity|reflexivity|].
    eapply (lock_inside 0%nat) with (x := Ok PNone) (c := Write16 1 [6; 255; 0; 0] 4 []); [cbn; repeat split; try lia; constructor|vm_compute; reflexivity|cbn; lia|vm_compute; reflexivity|apply G|destruct (padded 0%nat); vm_compute; reflexivity|reflexivity|].
    eapply (lock_back 0%nat); [reflexivity|].
    eapply (lock_move 0%nat) with (x := Ok PNone) (c := CompareAndWrite 0 [1; 0; 255; 255; 0; 0; 0; 0] 1 4 []); [cbn; repeat split; try lia; constructor|vm_compute; reflexivity|cbn; lia|vm_compute; reflexivity|apply G|destruct (padded 0%nat); vm_compute; reflexivity|reflexivity|].
    eapply (lock_move 1%nat) with (x := Ok PNone) (c := CompareAndWrite 0 [0; 0; 0; 0; 1; 1; 255; 255] 1 4 []); [cbn; repeat split; try lia; constructor|vm_compute; reflexivity|cbn; lia|vm_compute; reflexivity|apply G|destruct (padded 1%nat); vm_compute; reflexivity|reflexivity|].
    eapply (lock_inside 1%nat) with (x := Ok (PBytes [6; 255; 0; 0])) (c := Read16 1 1 4 []); [cbn; repeat split; try lia; constructor|vm_compute; reflexivity|cbn; lia|vm_compute; reflexivity|apply G|destruct (padded 1%nat); vm_compute; reflexivity|reflexivity|].
    eapply (lock_inside 1%nat) with (x := Ok PNone) (c := Write16 1 [8; 255; 255; 0] 4 []); [cbn; repeat split; try lia; constructor|vm_compute; reflexivity|cbn; lia|vm_compute; reflexivity|apply G|destruct (padded 1%nat); vm_compute; reflexivity|reflexivity|].
    eapply (lock_back 1%nat); [reflexivity|].
    eapply (lock_move 1%nat) with (x := Ok PNone) (c := CompareAndWrite 0 [1; 1; 255; 255; 0; 0; 0; 0] 1 4 []); [cbn; repeat split; try lia; constructor|vm_compute; reflexivity|cbn; lia|vm_compute; reflexivity|apply G|destruct (padded 1%nat); vm_compute; reflexivity|reflexivity|].
    apply tg_nil.
  - repeat split.
Qed.
Example C119_changes_example : changed example_change [0%nat; 1%nat] [5; 0; 0; 0] = [8; 255; 255; 0].
Proof. reflexivity. Qed.
(** Host 1 on Linux, with what it met. *)
Definition lock_linux : executer sgio (linux_world (sg_state (list bytes * list (list bytes)))) :=
  executer_init 1 (LinuxWorld [] (([], met_by 1 lock_trace), []) None).
Example C119_every_host_example : idle (linux_system _ 3000) lock_linux ([], met_by 1 lock_trace) /\
  match sync_wait 300 (coroutine (os_of (linux_system _ 3000) (disturbed (small_disk 1))) (lock_crowd 1%nat)) lock_linux with
  | Some (s, out) => out = shown (Ok PNone) /\ fst (l_dev (world s)) = ([[0; 0; 0; 0]; [8; 255; 255; 0]], [])
  | None => False
  end.
Proof. split; [repeat split; cbn; try lia; eauto|]. vm_compute. auto. Qed.
(** Host 0 has stopped while it has the lock; neither can host 1 take it nor give it back. *)
Example C119_kept_out_example : match sync_wait 300 (coroutine (os_of (linux_system _ 3000) (small_disk 1))
    (Call (locking 0 4 example_free (example_mark 1) 3 (Return PNone)) (unlocking 0 4 example_free (example_mark 1))))
    (executer_init 1 (LinuxWorld [] ([[1; 0; 255; 255]; [5; 0; 0; 0]], []) None)) with
  | Some (s, out) => out = shown (Err (EAsiCheckCondition (pad 255 example_sense))) /\ fst (l_dev (world s)) = [[1; 0; 255; 255]; [5; 0; 0; 0]]
  | None => False
  end.
Proof. vm_compute. auto. Qed.
(** The run of C119_careless_refuted on this disk ends without the mark of host 0. *)
Example C119_careless_example : forall padded, exists trace t' ps',
  together small_disk padded [[0; 0; 0; 0]; [5; 0; 0; 0]]
    (crowd 3 (fun h => careless 0 4 example_free (example_mark h) (overwriting (block_reader h) 1 4 (example_change h)))) trace t' ps' /\
  ps' 0%nat = Return PNone /\ ps' 2%nat = Return PNone /\ block_at t' 1 = [8; 0; 0; 0].
Proof.
  intro padded. destruct (C119_careless_refuted _ small_disk block_at 4 2 example_sense C119_disk_example ltac:(lia) ltac:(lia) 0 1
    example_change block_reader example_free example_mark padded ltac:(lia) ltac:(lia) ltac:(lia) C119_marks_example (proj1 C96_programs_example)
    C119_readers_example [[0; 0; 0; 0]; [5; 0; 0; 0]] eq_refl) as (trace & t' & ps' & G & A & _ & A2 & _ & A3).
  exists trace, t', ps'. auto.
Qed.

(** All theorems at once: what is printed holds for each of them. *)
Definition all_theorems := (@C119_one_by_one, @C119_never_stuck, @C119_every_host, @C119_changes, @C119_kept_out, @C119_foreign_key,
  @C119_careless_refuted).
Print Assumptions all_theorems.
