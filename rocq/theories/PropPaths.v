(** C104 and C105: coroutines with several executers. *)
From Coq Require Import String ZArith List Bool Lia.
From Verif Require Import Base Gen SpecGen Executer OsCommon OsLinux OsSolaris OsAix OsWin32 SpecSg SpecDrivers SpecSession Instruct Command
  CdbPrimary SpecDevice SpecCdb SpecExecute SpecSense SpecPortable DiskFacts SpecReserve SpecAdaptive SpecAsync SpecClone CloneFacts SpecShared SharedFacts
  SpecPaths PathsFacts.
From Verif Require PropClone PropShared.
Import ListNotations.
Local Open Scope string_scope.
Local Open Scope list_scope.
Local Open Scope Z_scope.

(** ** C104: several executers in one process *)

(** A coroutine that sends each of its commands to some executer of the process, on any of the four systems: sync_wait
    ends as it should and in no other way, and all executers can be used again, also after a path was lost. *)
Theorem C104_programs : forall T (sys : system T) loss n tgt t j t' r m, raises_when_gone sys loss -> ready sys n m t ->
  happens n tgt (pads sys) loss t j t' r ->
  (exists m', sync_wait_ends (job_coroutine sys tgt j) m m' (shown r) /\ ready sys n m' t') /\
  forall m' out, sync_wait_ends (job_coroutine sys tgt j) m m' out -> out = shown r /\ ready sys n m' t'.
Proof. intros. split; [eapply jobs; eauto|intros; eapply jobs_only; eauto]. Qed.

(** A coroutine written for one executer, run with executer [d] of them: the others make no difference. *)
Theorem C104_one_of_them : forall T (sys : system T) loss n tgt d t p t' r m, raises_when_gone sys loss -> ready sys n m t -> (d < n)%nat ->
  does (tgt d) (pads sys) t p t' r ->
  exists m', sync_wait_ends (job_coroutine sys tgt (part d p)) m m' (shown r) /\ ready sys n m' t'.
Proof. exact job_part. Qed.

(** Copying a disk to another one of the same block size that is not smaller: the blocks of the first are on the second,
    and nothing else has changed. *)
Theorem C104_copy_disk : forall A D (sys : system (A * D)) loss ta td ca cd bs n n' bad sense ma md, raises_when_gone sys loss ->
  flawed_disk ta ca bs n bad sense -> block_device td cd bs n' -> reports_capacity ta ca bs n ma -> reports_capacity td cd bs n' md ->
  1 <= bs < 2 ^ 32 -> 1 <= n <= n' -> n' <= 2 ^ 64 ->
  forall rd wr chunk, reads_up_to rd bs n chunk -> writes_up_to wr bs n' chunk -> 1 <= chunk -> chunk * bs < 2 ^ 32 ->
  forall x m a d, (2 <= x)%nat -> ready sys x m (a, d) -> (forall k, 0 <= k < n -> bad k = false) ->
  exists m' a' d', sync_wait_ends (job_coroutine sys (two_devices ta td) (copy_disk rd wr chunk)) m m' (shown (Ok PNone)) /\
    ready sys x m' (a', d') /\ (forall k, 0 <= k < n -> ca a' k = ca a k) /\
    (forall k, 0 <= k < n' -> cd d' k = if k <? n then ca a k else cd d k).
Proof. intros. eapply copy_runs; eauto. Qed.

(** If block [b] is the first that cannot be read: its error is raised, and the pieces before the one with [b] have been copied. *)
Theorem C104_copy_unreadable : forall A D (sys : system (A * D)) loss ta td ca cd bs n n' bad sense ma md, raises_when_gone sys loss ->
  flawed_disk ta ca bs n bad sense -> block_device td cd bs n' -> reports_capacity ta ca bs n ma -> reports_capacity td cd bs n' md ->
  1 <= bs < 2 ^ 32 -> 1 <= n <= n' -> n' <= 2 ^ 64 ->
  forall rd wr chunk, reads_up_to rd bs n chunk -> writes_up_to wr bs n' chunk -> 1 <= chunk -> chunk * bs < 2 ^ 32 ->
  forall x m a d b, (2 <= x)%nat -> ready sys x m (a, d) -> 0 <= b < n -> bad b = true -> (forall k, 0 <= k < b -> bad k = false) ->
  exists m' a' d', sync_wait_ends (job_coroutine sys (two_devices ta td) (copy_disk rd wr chunk)) m m'
      (shown (Err (EAsiCheckCondition (pad 255 sense)))) /\
    ready sys x m' (a', d') /\ (forall k, 0 <= k < n -> ca a' k = ca a k) /\
    (forall k, 0 <= k < n' -> cd d' k = if k <? chunk * (b / chunk) then ca a k else cd d k).
Proof. intros. eapply copy_until_runs; eauto. Qed.

(** If the block sizes differ or the second disk is smaller, ValueError is raised and neither disk has changed. *)
Theorem C104_copy_refused : forall A D (sys : system (A * D)) loss ta td ca cd bs n bs' n' ma md, raises_when_gone sys loss ->
  reports_capacity ta ca bs n ma -> reports_capacity td cd bs' n' md -> 1 <= bs < 2 ^ 32 -> 1 <= bs' < 2 ^ 32 -> 1 <= n <= 2 ^ 64 -> 1 <= n' <= 2 ^ 64 ->
  forall rd wr chunk x m a d, (2 <= x)%nat -> ready sys x m (a, d) -> bs <> bs' \/ n' < n ->
  exists m' a' d', sync_wait_ends (job_coroutine sys (two_devices ta td) (copy_disk rd wr chunk)) m m' (Threw EValue) /\
    ready sys x m' (a', d') /\ (forall k, 0 <= k < n -> ca a' k = ca a k) /\ (forall k, 0 <= k < n' -> cd d' k = cd d k).
Proof. intros. eapply copy_refused_runs; eauto. Qed.

(** ** C105: several paths to one device *)

(** A READ that is tried on one path after the other gets the blocks, unless every one of the paths loses the command or
    the answer; then the exception of the last is raised.  Only as many paths are tried as necessary. *)
Theorem C105_read : forall T (sys : system (T * list fault)) loss tgt content bs n x ds m t fs, raises_when_gone sys loss ->
  ready sys x m (t, fs) -> Forall (fun d => (d < x)%nat) ds -> ds <> [] -> 1 <= bs -> block_device tgt content bs n ->
  forall c lba q, read_of c lba q bs -> proper c -> arguments_fit c -> lba + q <= n -> q * bs < 2 ^ 32 ->
  exists m' t', sync_wait_ends (job_coroutine sys (fun _ => unreliable tgt) (failover ds c)) m m'
      (shown (if (losses fs <? length ds)%nat then Ok (if q =? 0 then PNone else PBytes (blocks (content t) lba (Z.to_nat q))) else Err loss)) /\
    ready sys x m' (t', skipn (Nat.min (Datatypes.S (losses fs)) (length ds)) fs) /\ forall k, 0 <= k < n -> content t' k = content t k.
Proof. intros. eapply paths_read; eauto. Qed.

(** A WRITE, too; if all paths fail, the blocks have been written all the same if it was an answer that was lost. *)
Theorem C105_write : forall T (sys : system (T * list fault)) loss tgt content bs n x ds m t fs, raises_when_gone sys loss ->
  ready sys x m (t, fs) -> Forall (fun d => (d < x)%nat) ds -> ds <> [] -> 1 <= bs -> block_device tgt content bs n ->
  forall c lba data, write_of c lba data bs -> proper c -> arguments_fit c -> lba + zlen data / bs <= n -> zlen data < 2 ^ 32 ->
  exists m' t', sync_wait_ends (job_coroutine sys (fun _ => unreliable tgt) (failover ds c)) m m'
      (shown (if (losses fs <? length ds)%nat then Ok PNone else Err loss)) /\
    ready sys x m' (t', skipn (Nat.min (Datatypes.S (losses fs)) (length ds)) fs) /\
    forall k, 0 <= k < n -> content t' k =
      if (losses fs <? length ds)%nat || existsb answer_lost (firstn (length ds) fs) then written bs lba (zlen data / bs) data (content t) k
      else content t k.
Proof. intros. eapply paths_write; eauto. Qed.

(** Any sequence of READs and WRITEs on a disk whose paths never all fail for one command has the results and the effect
    that it has on a disk that can always be reached. *)
Theorem C105_session : forall T (sys : system (T * list fault)) loss tgt content bs n x ds m t fs, raises_when_gone sys loss ->
  ready sys x m (t, fs) -> Forall (fun d => (d < x)%nat) ds -> ds <> [] -> 1 <= bs -> block_device tgt content bs n ->
  forall d cmds d' vs, disk_session bs n d cmds d' (map Ok vs) -> (forall k, 0 <= k < n -> content t k = d k) -> fewer_losses (length ds) fs ->
  exists m' t' fs', sync_wait_ends (job_coroutine sys (fun _ => unreliable tgt) (failing_over ds cmds [])) m m' (shown (Ok (PList vs))) /\
    ready sys x m' (t', fs') /\ forall k, 0 <= k < n -> content t' k = d' k.
Proof. intros. eapply paths_session; eauto. Qed.

(** COMPARE AND WRITE: the blocks are replaced if and only if they were as expected and some attempt reached the device.  None
    is returned only then; but MISCOMPARE is raised also if an attempt whose answer was lost has replaced them. *)
Theorem C105_compare_and_write : forall T (sys : system (T * list fault)) loss tgt content bs capacity x ds m t fs, raises_when_gone sys loss ->
  ready sys x m (t, fs) -> Forall (fun d => (d < x)%nat) ds -> ds <> [] ->
  forall sense, 1 <= bs < 2 ^ 31 -> compare_disk (fun _ => tgt) content bs capacity sense ->
  forall lba n old new, 0 <= lba < 2 ^ 64 -> 0 <= n < 2 ^ 8 -> lba + n <= capacity -> 2 * n * bs < 2 ^ 32 -> zlen old = n * bs -> zlen new = n * bs ->
  let equal := same_bytes (blocks (content t) lba (Z.to_nat n)) old in
  let unnoticed := existsb answer_lost (firstn (Nat.min (losses fs) (length ds)) fs) in
  exists m' t', sync_wait_ends (job_coroutine sys (fun _ => unreliable tgt) (failover ds (CompareAndWrite lba (old ++ new) n bs []))) m m'
      (shown (if (losses fs <? length ds)%nat
              then if equal && (negb unnoticed || same_bytes new old) then Ok PNone else Err (EAsiCheckCondition (pad 255 sense))
              else Err loss)) /\
    ready sys x m' (t', skipn (Nat.min (Datatypes.S (losses fs)) (length ds)) fs) /\
    forall k, 0 <= k < capacity -> content t' k =
      if equal && ((losses fs <? length ds)%nat || unnoticed) then written bs lba n new (content t) k else content t k.
Proof. intros. eapply paths_compare; eauto. Qed.

(** So it cannot be tried again like that: MISCOMPARE does not mean that nothing was changed. *)
Theorem C105_compare_and_write_refuted : forall T (sys : system (T * list fault)) loss tgt content bs capacity sense lba n old new t fs x m d1 d2,
  raises_when_gone sys loss -> compare_disk (fun _ => tgt) content bs capacity sense -> 1 <= bs < 2 ^ 31 -> 0 <= lba < 2 ^ 64 -> 0 <= n < 2 ^ 8 ->
  lba + n <= capacity -> 2 * n * bs < 2 ^ 32 -> zlen new = n * bs -> (d1 < x)%nat -> (d2 < x)%nat ->
  blocks (content t) lba (Z.to_nat n) = old -> new <> old -> ready sys x m (t, AnswerLost :: Works :: fs) ->
  exists m' t', sync_wait_ends (job_coroutine sys (fun _ => unreliable tgt) (failover [d1; d2] (CompareAndWrite lba (old ++ new) n bs []))) m m'
      (shown (Err (EAsiCheckCondition (pad 255 sense)))) /\ ready sys x m' (t', fs) /\
    forall k, 0 <= k < capacity -> content t' k = written bs lba n new (content t) k.
Proof. exact compare_misleads. Qed.

(** ** Examples *)

(** The four systems; on Solaris the ioctl fails if and only if the adapter reports an error. *)
Example C104_systems_example : forall T timeout,
  raises_when_gone (linux_system T timeout) EAsiSCSI /\ raises_when_gone (solaris_system T (fun a => negb (a_host a =? 0)) timeout) (EIO 5) /\
  raises_when_gone (aix_system T timeout false) EAsiSCSI /\ raises_when_gone (win_system T) EAsiOS.
Proof.
  intros T timeout. split; [constructor|]. split; [|split; constructor].
  constructor; intros a H; [rewrite H; reflexivity|]. apply Z.eqb_neq in H. rewrite H. reflexivity.
Qed.

(** A process on Linux with [count] executers. *)
Definition example_machine {T} (count : nat) (t : T) : machine (linux_system T 3000) :=
  Machine (sys := linux_system T 3000) (repeat (executer_init 1 (LinuxWorld [] (t, []) None)) count) t.
Example C104_machine_example : forall T count (t : T), ready (linux_system T 3000) count (example_machine count t) t.
Proof.
  intros T count t. split; [apply repeat_length|]. split; [reflexivity|]. apply Forall_forall. intros s H. apply repeat_spec in H. subst s.
  exists t. repeat split; cbn; try lia; eauto.
Qed.
Definition ends_with {T} (tgt : nat -> target T) (count : nat) (t : T) (j : job) (r : result pyval) (good : T -> bool) : bool :=
  match sync_wait 500 (job_coroutine (linux_system T 3000) tgt j) (example_machine count t) with
  | Some (m, out) =>
    match out, r with
    | Returned (RVal (VData (DBytes b))), Ok (PBytes b') => same_bytes b b'
    | Returned (RVal VNone), Ok PNone => true
    | Returned (RVal (VData (DObj (WObj (PList l))))), Ok (PList l') =>
      (length l =? length l')%nat && forallb (fun p => match p with
                                                 | (PNone, PNone) => true
                                                 | (PBytes b, PBytes b') => same_bytes b b'
                                                 | _ => false end) (combine l l')
    | Threw (EAsiCheckCondition b), Err (EAsiCheckCondition b') => same_bytes b b'
    | Threw EValue, Err EValue => true
    | Threw EAsiSCSI, Err EAsiSCSI => true
    | _, _ => false
    end && good (outside m)
  | None => false
  end.

(** Copying three blocks of two bytes to a disk of five, in pieces of two blocks. *)
Definition example_first (k : Z) : bytes := [k; k + 16].
Definition example_second (k : Z) : bytes := [100 + k; 200 + k].
Definition example_copy (bad : Z -> bool) (r : result pyval) (second : bytes) : bool :=
  ends_with (two_devices (sample_disk 2 3 bad PropClone.example_sense) (sample_disk 2 5 (fun _ => false) PropClone.example_sense)) 2
    (example_first, example_second) (copy_disk PropClone.example_reader PropClone.example_writer 2) r
    (fun t => same_bytes (blocks (fst t) 0 3) (blocks example_first 0 3) && same_bytes (blocks (snd t) 0 5) second).
Example C104_copy_disk_example :
  reads_up_to PropClone.example_reader 2 3 2 /\ writes_up_to PropClone.example_writer 2 5 2 /\
  example_copy (fun _ => false) (Ok PNone) [0; 16; 1; 17; 2; 18; 103; 203; 104; 204] = true.
Proof. split; [apply sixteen_reads; lia|]. split; [apply sixteen_writes; lia|]. vm_compute. reflexivity. Qed.
(** Block 2 cannot be read: blocks 0 and 1 have been copied. *)
Example C104_copy_unreadable_example :
  example_copy (fun k => k =? 2) (Err (EAsiCheckCondition (pad 255 PropClone.example_sense))) [0; 16; 1; 17; 102; 202; 103; 203; 104; 204] = true.
Proof. vm_compute. reflexivity. Qed.
(** The second disk is too small. *)
Example C104_copy_refused_example :
  ends_with (two_devices (sample_disk 2 5 (fun _ => false) PropClone.example_sense) (sample_disk 2 3 (fun _ => false) PropClone.example_sense)) 2
    (example_first, example_second) (copy_disk PropClone.example_reader PropClone.example_writer 2) (Err EValue)
    (fun t => same_bytes (blocks (snd t) 0 3) (blocks example_second 0 3)) = true.
Proof. vm_compute. reflexivity. Qed.
(** A program of one executer with the second of two. *)
Example C104_one_of_them_example : exists a' d', does (two_devices (sample_disk 2 3 (fun _ => false) PropClone.example_sense)
    (sample_disk 2 5 (fun _ => false) PropClone.example_sense) 1) true (example_first, example_second)
    (Do (Read16 4 1 2 []) finish) (a', d') (Ok (PBytes [104; 204])).
Proof.
  exists example_first, example_second. eapply does_command with (a := good [104; 204]); [constructor|reflexivity|cbn; lia|reflexivity| |].
  - split; [reflexivity|]. split; [|left; split; reflexivity]. split; [constructor|]. cbn. intros [H|H]; discriminate H.
  - exact (does_return _ _ _ (PBytes [104; 204])).
Qed.

(** Three paths to a disk of five blocks of two bytes. *)
Definition example_paths (fs : list fault) (ds : list nat) (c : command) (r : result pyval) (content : bytes) (left : nat) : bool :=
  ends_with (fun _ => unreliable (sample_disk 2 5 (fun _ => false) PropClone.example_sense)) 3 (example_second, fs) (failover ds c) r
    (fun t => same_bytes (blocks (fst t) 0 5) content && (length (snd t) =? left)%nat).
Example C105_read_example :
  example_paths [CommandLost; AnswerLost; Works; Works] [0%nat; 1%nat; 2%nat] (Read10 3 2 2 []) (Ok (PBytes [103; 203; 104; 204])) (blocks example_second 0 5) 1 = true /\
  example_paths [CommandLost; AnswerLost; CommandLost; Works] [2%nat; 0%nat] (Read10 3 2 2 []) (Err EAsiSCSI) (blocks example_second 0 5) 2 = true.
Proof. vm_compute. auto. Qed.
Example C105_write_example :
  example_paths [CommandLost; Works] [0%nat; 1%nat] (Write10 4 [7; 8] 2 []) (Ok PNone) [100; 200; 101; 201; 102; 202; 103; 203; 7; 8] 0 = true /\
  example_paths [AnswerLost; CommandLost; Works] [0%nat; 1%nat] (Write10 4 [7; 8] 2 []) (Err EAsiSCSI) [100; 200; 101; 201; 102; 202; 103; 203; 7; 8] 1 = true /\
  example_paths [CommandLost; CommandLost] [0%nat; 1%nat] (Write10 4 [7; 8] 2 []) (Err EAsiSCSI) (blocks example_second 0 5) 0 = true.
Proof. vm_compute. auto. Qed.
(** Every second command is lost. *)
Definition example_faults : list fault := [AnswerLost; Works; CommandLost; Works; AnswerLost].
Example C105_session_example : fewer_losses 2 example_faults /\
  disk_session 2 5 example_second [Write10 0 [1; 2; 3; 4] 2 []; Read16 1 2 2 []] (written 2 0 2 [1; 2; 3; 4] example_second) (map Ok [PNone; PBytes [3; 4; 102; 202]]) /\
  ends_with (fun _ => unreliable (sample_disk 2 5 (fun _ => false) PropClone.example_sense)) 2 (example_second, example_faults)
    (failing_over [0%nat; 1%nat] [Write10 0 [1; 2; 3; 4] 2 []; Read16 1 2 2 []] []) (Ok (PList [PNone; PBytes [3; 4; 102; 202]]))
    (fun t => same_bytes (blocks (fst t) 0 5) [1; 2; 3; 4; 102; 202; 103; 203; 104; 204] && (length (snd t) =? 1)%nat) = true.
Proof.
  split; [intro i; do 5 (destruct i as [|i]; [cbn; lia|]); destruct i; cbn; lia|]. split; [|vm_compute; reflexivity].
  assert (F : forall s, settings_fit (rw10_widths s) []) by (intros s; repeat constructor; cbn; lia).
  eapply dk_write with (lba := 0); [repeat split; auto|split; [apply Forall_nil|lia]| |cbn; lia|reflexivity|].
  - split; [lia|]. split; [reflexivity|]. split; [reflexivity|apply F].
  - change (zlen [1; 2; 3; 4] / 2) with 2.
    apply (dk_read 2 5 (written 2 0 2 [1; 2; 3; 4] example_second) (Read16 1 2 2 []) 1 2 [] (written 2 0 2 [1; 2; 3; 4] example_second) []); [repeat split; auto|apply Forall_nil| |lia|reflexivity|apply dk_nil].
    split; [lia|]. split; [lia|apply F].
Qed.
(** The compared block was as expected and has been replaced; the answer of the first path is lost, the second reports MISCOMPARE. *)
Example C105_compare_and_write_example :
  let c := CompareAndWrite 0 ([5; 0; 0; 0] ++ [6; 0; 0; 0]) 1 4 [] in
  let misleading fs r after := ends_with (fun _ => unreliable (PropShared.example_disk 0)) 2 ([5; 0; 0; 0], fs) (failover [0%nat; 1%nat] c) r
    (fun t => same_bytes (fst t) after) in
  misleading [AnswerLost; Works] (Err (EAsiCheckCondition (pad 255 PropShared.example_sense))) [6; 0; 0; 0] = true /\
  misleading [CommandLost; Works] (Ok PNone) [6; 0; 0; 0] = true /\
  misleading [CommandLost; AnswerLost] (Err EAsiSCSI) [6; 0; 0; 0] = true /\
  misleading [CommandLost; CommandLost] (Err EAsiSCSI) [5; 0; 0; 0] = true.
Proof. vm_compute. auto. Qed.

(** All theorems at once: what is printed holds for each of them. *)
Definition all_theorems := (@C104_programs, @C104_one_of_them, @C104_copy_disk, @C104_copy_unreadable, @C104_copy_refused, @C105_read,
  @C105_write, @C105_session, @C105_compare_and_write, @C105_compare_and_write_refuted).
Print Assumptions all_theorems.
