(** C96: hosts that change a block at the same time. *)
From Coq Require Import String ZArith List Bool Lia PeanoNat Permutation.
From Verif Require Import Base Gen SpecGen Executer OsCommon OsLinux OsSolaris OsAix OsWin32 SpecSg SpecDrivers SpecSession Instruct Command
  CdbPrimary SpecDevice SpecCdb SpecExecute Sense SpecSense SpecPortable DiskFacts SpecReserve SpecAdaptive AdaptiveFacts SpecShared SharedFacts.
Import ListNotations.
Local Open Scope string_scope.
Local Open Scope list_scope.
Local Open Scope Z_scope.

(** CompareAndWriteCommand on any of the four systems: None and the blocks are replaced if they were as expected, otherwise
    AsiCheckConditionError with the sense data of the device, and nothing is changed. *)
Theorem C96_compare_and_write : forall T (sys : system T) tgt content bs capacity sense lba n old new t s, one_of_four sys -> idle sys s t ->
  compare_disk (fun _ => tgt) content bs capacity sense -> 1 <= bs < 2 ^ 31 -> 0 <= lba < 2 ^ 64 -> 0 <= n < 2 ^ 8 -> lba + n <= capacity ->
  2 * n * bs < 2 ^ 32 -> zlen old = n * bs -> zlen new = n * bs ->
  exists s' t', idle sys s' t' /\
    ((blocks (content t) lba (Z.to_nat n) = old /\
      sync_wait_ends (coroutine (os_of sys tgt) (Do (CompareAndWrite lba (old ++ new) n bs []) finish)) s s' (shown (Ok PNone)) /\
      forall k, 0 <= k < capacity -> content t' k = written bs lba n new (content t) k) \/
     (blocks (content t) lba (Z.to_nat n) <> old /\
      sync_wait_ends (coroutine (os_of sys tgt) (Do (CompareAndWrite lba (old ++ new) n bs []) finish)) s s'
        (shown (Err (EAsiCheckCondition (pad 255 sense)))) /\
      forall k, 0 <= k < capacity -> content t' k = content t k)).
Proof. exact compare_runs. Qed.

(** Whatever programs hosts run against one device, and however their commands interleave: on the system of every host
    sync_wait ends as the program does, given the states of the device that its commands met. *)
Theorem C96_every_host : forall T tgt padded (t : T) ps trace t' ps' h (sys : system (T * list T)) r y s,
  together tgt padded t ps trace t' ps' -> ended (ps' h) = Some r -> one_of_four sys -> pads sys = padded h ->
  idle sys s (y, met_by h trace) ->
  exists s' last, sync_wait_ends (coroutine (os_of sys (disturbed (tgt h))) (ps h)) s s' (shown r) /\ idle sys s' (last, []).
Proof. exact hosts_together. Qed.

(** At any time, the block holds the changes of exactly the hosts whose program has returned, one after the other in some order;
    a host whose program failed has changed nothing, and failed only because more other hosts than its retries succeeded. *)
Theorem C96_no_lost_update : forall T tgt content bs capacity sense, compare_disk tgt content bs capacity sense ->
  1 <= bs < 2 ^ 31 -> capacity <= 2 ^ 64 -> forall lba f rd tries count padded, 0 <= lba < capacity ->
  (forall h b, zlen b = bs -> zlen (f h b) = bs) -> (forall h, read_of (rd h) lba 1 bs /\ proper (rd h) /\ arguments_fit (rd h)) ->
  forall (t : T) trace t' ps',
  together tgt padded t (crowd count (fun h => updating (rd h) lba bs (f h) (tries h))) trace t' ps' ->
  exists order, NoDup order /\ (forall h, In h order <-> (h < count)%nat /\ ps' h = Return PNone) /\
    content t' lba = changed f order (content t lba) /\
    (forall k, 0 <= k < capacity -> k <> lba -> content t' k = content t k) /\
    (forall h e, ps' h = Fail e -> e = EAsiCheckCondition (pad 255 sense) /\ (tries h < length order)%nat) /\
    (forall h, length (met_by h trace) <= 2 * Datatypes.S (tries h))%nat.
Proof. exact @no_lost_update. Qed.

(** No host waits for another one. *)
Theorem C96_never_stuck : forall T tgt content bs capacity sense, compare_disk tgt content bs capacity sense ->
  1 <= bs < 2 ^ 31 -> capacity <= 2 ^ 64 -> forall lba f rd tries count padded, 0 <= lba < capacity ->
  (forall h b, zlen b = bs -> zlen (f h b) = bs) -> (forall h, read_of (rd h) lba 1 bs /\ proper (rd h) /\ arguments_fit (rd h)) ->
  forall (t : T) trace t' ps' h,
  together tgt padded t (crowd count (fun h => updating (rd h) lba bs (f h) (tries h))) trace t' ps' -> ended (ps' h) = None ->
  exists t1 p1, moves (tgt h) (padded h) t' (ps' h) [t'] t1 p1.
Proof. exact @never_stuck. Qed.

(** With one retry less than there are hosts, everybody succeeds. *)
Theorem C96_all_succeed : forall T tgt content bs capacity sense, compare_disk tgt content bs capacity sense ->
  1 <= bs < 2 ^ 31 -> capacity <= 2 ^ 64 -> forall lba f rd tries count padded, 0 <= lba < capacity ->
  (forall h b, zlen b = bs -> zlen (f h b) = bs) -> (forall h, read_of (rd h) lba 1 bs /\ proper (rd h) /\ arguments_fit (rd h)) ->
  forall (t : T) trace t' ps', (forall h, (h < count)%nat -> (count <= Datatypes.S (tries h))%nat) ->
  together tgt padded t (crowd count (fun h => updating (rd h) lba bs (f h) (tries h))) trace t' ps' ->
  (forall h, ended (ps' h) <> None) ->
  (forall h, ps' h = Return PNone) /\
  exists order, Permutation order (seq 0 count) /\ content t' lba = changed f order (content t lba).
Proof. exact @all_succeed. Qed.

(** With WRITE in place of COMPARE AND WRITE both of two hosts can succeed, and the change of one of them is lost. *)
Theorem C96_write_refuted : forall T tgt content bs capacity sense lba f rd padded (t : T), compare_disk tgt content bs capacity sense ->
  1 <= bs < 2 ^ 31 -> capacity <= 2 ^ 64 -> 0 <= lba < capacity -> (forall h b, zlen b = bs -> zlen (f h b) = bs) ->
  (forall h, read_of (rd h) lba 1 bs /\ proper (rd h) /\ arguments_fit (rd h)) ->
  exists trace t' ps', together tgt padded t (crowd 2 (fun h => overwriting (rd h) lba bs (f h))) trace t' ps' /\
    (forall h, ps' h = Return PNone) /\ content t' lba = f 1%nat (content t lba).
Proof. exact lost_update. Qed.

(** ** Examples *)

(** A disk of one block of four bytes. *)
Definition example_sense : bytes := [112; 0; 14; 0; 0; 0; 0; 10; 0; 0; 0; 0; 29; 0; 0; 0; 0; 0].
Definition example_disk (_ : nat) : target bytes := fun t cdb data =>
  match interpret cdb with
  | Some (OpRead _ n _) => (t, good (blocks (fun _ => pad 4 t) 0 (Z.to_nat n)))
  | Some (OpWrite _ n _) => (if n =? 0 then t else data, good [])
  | Some (OpCompareAndWrite _ n _) =>
      if n =? 0 then (t, good [])
      else if same_bytes (pad 4 t) (firstn 4 data) then (skipn 4 data, good []) else (t, rejection example_sense)
  | _ => (t, good [])
  end.
Definition example_content (t : bytes) (_ : Z) : bytes := pad 4 t.

Example C96_disk_example : compare_disk example_disk example_content 4 1 example_sense.
Proof.
  assert (P : forall (d : bytes), length d = 4%nat -> pad 4 d = d) by (intros d X; rewrite <- X; apply pad_exact).
  constructor.
  - intro h. constructor.
    + intros t k _. unfold zlen, example_content. rewrite pad_length. reflexivity.
    + intros t cdb data lba n f I _ L N C. exists t. unfold example_disk. rewrite I. split; [|reflexivity].
      assert (X : n = 0 \/ n = 1) by lia. destruct X as [->| ->]; reflexivity.
    + intros t cdb data lba n f I _ L N C Z1. eexists. unfold example_disk. rewrite I. split; [reflexivity|].
      intros k K. assert (X : n = 0 \/ (n = 1 /\ lba = 0)) by lia. assert (k = 0) by lia. subst k.
      destruct X as [->|[-> ->]]; unfold written, example_content.
      * replace ((lba <=? 0) && (0 <? lba + 0)) with false; [reflexivity|]. symmetry. rewrite andb_false_iff, Z.leb_gt, Z.ltb_ge. lia.
      * cbn. unfold zlen in Z1. do 5 (destruct data as [|? data]; cbn in Z1; try lia). reflexivity.
  - split; [|reflexivity]. split; [repeat constructor; unfold byte_ok; lia|]. cbn. intros [H|H]; discriminate H.
  - intros h t cdb data lba n f I _ L N C Z1 equal.
    assert (X : n = 0 \/ (n = 1 /\ lba = 0)) by lia. unfold equal, example_disk. rewrite I. destruct X as [->|[-> ->]].
    + destruct data; [|unfold zlen in Z1; cbn in Z1; lia]. cbn. exists t. split; [reflexivity|]. intros k K. unfold written.
      replace ((lba <=? k) && (k <? lba + 0)) with false; [reflexivity|]. symmetry. rewrite andb_false_iff, Z.leb_gt, Z.ltb_ge. lia.
    + unfold zlen in Z1. do 9 (destruct data as [|? data]; cbn in Z1; try lia).
      unfold example_content. change (1 =? 0) with false. cbv iota.
      change (blocks (fun _ : Z => pad 4 t) 0 (Z.to_nat 1)) with (pad 4 t ++ []). rewrite app_nil_r.
      change (Z.to_nat (1 * 4)) with 4%nat.
      destruct (same_bytes (pad 4 t) (firstn 4 [z; z0; z1; z2; z3; z4; z5; z6])); eexists; (split; [reflexivity|]); intros k K; [|reflexivity].
      assert (k = 0) by lia. subst k. reflexivity.
Qed.

(** Host [h] adds [h] + 1 to the first byte and marks its own byte. *)
Definition example_change (h : nat) (b : bytes) : bytes :=
  match b with
  | [c; x; y; z] => [(c + Z.of_nat h + 1) mod 256; if Nat.eqb h 0 then 255 else x; if Nat.eqb h 1 then 255 else y; z]
  | _ => b
  end.
Example C96_programs_example : (forall h b, zlen b = 4 -> zlen (example_change h b) = 4) /\
  forall h, read_of (if Nat.eqb h 0 then Read10 0 1 4 [] else Read16 0 1 4 []) 0 1 4 /\
    proper (if Nat.eqb h 0 then Read10 0 1 4 [] else Read16 0 1 4 []) /\ arguments_fit (if Nat.eqb h 0 then Read10 0 1 4 [] else Read16 0 1 4 []).
Proof.
  split.
  - intros h b Z1. unfold zlen in Z1. do 5 (destruct b as [|? b]; cbn in Z1; try lia). reflexivity.
  - intro h. destruct (Nat.eqb h 0); (split; [cbn; auto|]); (split; [cbn; repeat split; try lia; constructor|]);
      cbn; unfold settings_fit, setting; cbn; repeat split; try lia; repeat constructor; cbn; lia.
Qed.
(** Both read, host 1 changes the block, host 0 is told MISCOMPARE, reads again and changes the block. *)
Definition example_reader (h : nat) : command := if Nat.eqb h 0 then Read10 0 1 4 [] else Read16 0 1 4 [].
Definition example_crowd : nat -> prog := crowd 2 (fun h => updating (example_reader h) 0 4 (example_change h) 1).
Definition example_trace : list (nat * bytes) :=
  [(0%nat, [5; 0; 0; 0]); (1%nat, [5; 0; 0; 0]); (1%nat, [5; 0; 0; 0]); (0%nat, [7; 0; 255; 0]); (0%nat, [7; 0; 255; 0]); (0%nat, [7; 0; 255; 0])].
Lemma example_move : forall h padded t c next k t1 a x ps trace t' ps', proper c -> issued c = Ok k -> moderate k ->
  example_disk h t (command_of k) (data_out k) = (t1, a) -> ordinary a -> seen (padded h) c k a = x -> ps h = Do c next ->
  together example_disk padded t1 (replaced h (next x) ps) trace t' ps' -> together example_disk padded t ps ((h, t) :: trace) t' ps'.
Proof.
  intros. subst x. change ((h, t) :: trace) with (map (pair h) [t] ++ trace). eapply tg_step; [|eassumption].
  match goal with E : ps h = _ |- _ => rewrite E end. eapply mv_command; eauto.
Qed.
Example C96_interleaving_example : forall padded, exists ps', together example_disk padded [5; 0; 0; 0] example_crowd example_trace [8; 255; 255; 0] ps' /\
  forall h, ps' h = Return PNone.
Proof.
  assert (S : conforming_sense example_sense).
  { split; [repeat constructor; unfold byte_ok; lia|]. cbn. intros [H|H]; discriminate H. }
  assert (G : forall d, ordinary (good d)) by (intro d; apply ordinary_good).
  assert (J : ordinary (rejection example_sense)) by (split; [reflexivity|]; split; [exact S|]; right; left; split; reflexivity).
  intros padded. eexists. split.
  - unfold example_trace.
    eapply (example_move 0%nat) with (x := Ok (PBytes [5; 0; 0; 0])) (c := Read10 0 1 4 []); [cbn; repeat split; try lia; constructor|vm_compute; reflexivity|cbn; lia|vm_compute; reflexivity|apply G|destruct (padded 0%nat); vm_compute; reflexivity|reflexivity|].
    eapply (example_move 1%nat) with (x := Ok (PBytes [5; 0; 0; 0])) (c := Read16 0 1 4 []); [cbn; repeat split; try lia; constructor|vm_compute; reflexivity|cbn; lia|vm_compute; reflexivity|apply G|destruct (padded 1%nat); vm_compute; reflexivity|reflexivity|].
    eapply (example_move 1%nat) with (x := Ok PNone) (c := CompareAndWrite 0 [5; 0; 0; 0; 7; 0; 255; 0] 1 4 []); [cbn; repeat split; try lia; constructor|vm_compute; reflexivity|cbn; lia|vm_compute; reflexivity|apply G|destruct (padded 1%nat); vm_compute; reflexivity|reflexivity|].
    eapply (example_move 0%nat) with (x := Err (EAsiCheckCondition (pad 255 example_sense))) (c := CompareAndWrite 0 [5; 0; 0; 0; 6; 255; 0; 0] 1 4 []); [cbn; repeat split; try lia; constructor|vm_compute; reflexivity|cbn; lia|vm_compute; reflexivity|exact J|destruct (padded 0%nat); vm_compute; reflexivity|reflexivity|].
    eapply (example_move 0%nat) with (x := Ok (PBytes [7; 0; 255; 0])) (c := Read10 0 1 4 []); [cbn; repeat split; try lia; constructor|vm_compute; reflexivity|cbn; lia|vm_compute; reflexivity|apply G|destruct (padded 0%nat); vm_compute; reflexivity|reflexivity|].
    eapply (example_move 0%nat) with (x := Ok PNone) (c := CompareAndWrite 0 [7; 0; 255; 0; 8; 255; 255; 0] 1 4 []); [cbn; repeat split; try lia; constructor|vm_compute; reflexivity|cbn; lia|vm_compute; reflexivity|apply G|destruct (padded 0%nat); vm_compute; reflexivity|reflexivity|].
    apply tg_nil.
  - intro h. destruct h as [|[|h]]; reflexivity.
Qed.
(** Host 0 on Linux. *)
Definition example_linux : executer sgio (linux_world (sg_state (bytes * list bytes))) :=
  executer_init 1 (LinuxWorld [] (([5; 0; 0; 0], met_by 0 example_trace), []) None).
Example C96_linux_example : idle (linux_system (bytes * list bytes) 3000) example_linux ([5; 0; 0; 0], met_by 0 example_trace) /\
  match sync_wait 200 (coroutine (os_of (linux_system (bytes * list bytes) 3000) (disturbed (example_disk 0))) (example_crowd 0%nat)) example_linux with
  | Some (s, out) => out = shown (Ok PNone) /\ fst (l_dev (world s)) = ([8; 255; 255; 0], [])
  | None => False
  end.
Proof. split; [repeat split; cbn; try lia; eauto|]. vm_compute. auto. Qed.
(** Here the order matters to nobody, and both changes are there; with WRITE the mark of host 0 is missing. *)
Example C96_changes_example : changed example_change [1%nat; 0%nat] [5; 0; 0; 0] = [8; 255; 255; 0] /\
  example_change 1 [5; 0; 0; 0] = [7; 0; 255; 0].
Proof. split; reflexivity. Qed.

(** All theorems at once: what is printed holds for each of them. *)
Definition all_theorems := (@C96_compare_and_write, @C96_every_host, @C96_no_lost_update, @C96_never_stuck, @C96_all_succeed,
  @C96_write_refuted).
Print Assumptions all_theorems.
