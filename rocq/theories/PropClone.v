(** C98: copying disks. *)
From Coq Require Import String ZArith List Bool Lia.
From Verif Require Import Base Gen SpecGen Executer OsCommon OsLinux OsSolaris OsAix OsWin32 SpecSg SpecDrivers SpecSession Instruct Command
  CdbPrimary SpecDevice SpecCdb SpecExecute Sense SpecSense SpecPortable DiskFacts SpecReserve SpecAdaptive AdaptiveFacts SpecShared SpecClone CloneFacts.
Import ListNotations.
Local Open Scope string_scope.
Local Open Scope list_scope.
Local Open Scope Z_scope.

(** A coroutine that asks for the capacity and reads all blocks, in pieces of any size, returns the whole content and changes nothing. *)
Theorem C98_dump : forall T (sys : system T) tgt content bs n more, one_of_four sys -> reports_capacity tgt content bs n more ->
  1 <= bs < 2 ^ 32 -> 1 <= n <= 2 ^ 64 ->
  forall rd chunk s t, idle sys s t -> block_device tgt content bs n -> reads_up_to rd bs n chunk -> 1 <= chunk -> chunk * bs < 2 ^ 32 ->
  exists s' t', sync_wait_ends (coroutine (os_of sys tgt) (dump rd chunk)) s s' (shown (Ok (PBytes (blocks (content t) 0 (Z.to_nat n))))) /\
    idle sys s' t' /\ forall k, 0 <= k < n -> content t' k = content t k.
Proof. exact @dump_runs. Qed.

(** A coroutine that writes data in pieces leaves the disk as one WRITE of all the data would. *)
Theorem C98_restore : forall T (sys : system T) tgt content bs n more, one_of_four sys -> reports_capacity tgt content bs n more ->
  1 <= bs < 2 ^ 32 -> 1 <= n <= 2 ^ 64 ->
  forall wr chunk data m s t, idle sys s t -> block_device tgt content bs n -> writes_up_to wr bs n chunk -> 1 <= chunk -> chunk * bs < 2 ^ 32 ->
  zlen data = m * bs -> 0 <= m <= n ->
  exists s' t', sync_wait_ends (coroutine (os_of sys tgt) (restore wr chunk data)) s s' (shown (Ok PNone)) /\
    idle sys s' t' /\ forall k, 0 <= k < n -> content t' k = written bs 0 m data (content t) k.
Proof. exact @restore_runs. Qed.
(** If the disk is too small, nothing is written. *)
Theorem C98_too_large : forall T (sys : system T) tgt content bs n more, one_of_four sys -> reports_capacity tgt content bs n more ->
  1 <= bs < 2 ^ 32 -> 1 <= n <= 2 ^ 64 ->
  forall wr chunk data s t, idle sys s t -> n * bs < zlen data ->
  exists s' t', sync_wait_ends (coroutine (os_of sys tgt) (restore wr chunk data)) s s' (Threw EValue) /\
    idle sys s' t' /\ forall k, 0 <= k < n -> content t' k = content t k.
Proof. exact @too_large_runs. Qed.

(** What was read from one disk and written to another is the same there, whatever system each disk is attached to. *)
Theorem C98_clone : forall T1 T2 (sys1 : system T1) (sys2 : system T2) tgt1 tgt2 content1 content2 bs n1 n2 more1 more2 rd wr chunk1 chunk2 s1 s2 t1 t2,
  one_of_four sys1 -> one_of_four sys2 -> idle sys1 s1 t1 -> idle sys2 s2 t2 ->
  block_device tgt1 content1 bs n1 -> block_device tgt2 content2 bs n2 -> reports_capacity tgt1 content1 bs n1 more1 ->
  reports_capacity tgt2 content2 bs n2 more2 -> 1 <= bs < 2 ^ 32 -> 1 <= n1 <= n2 -> n2 <= 2 ^ 64 ->
  reads_up_to rd bs n1 chunk1 -> writes_up_to wr bs n2 chunk2 -> 1 <= chunk1 -> 1 <= chunk2 -> chunk1 * bs < 2 ^ 32 -> chunk2 * bs < 2 ^ 32 ->
  exists data s1' t1' s2' t2',
    sync_wait_ends (coroutine (os_of sys1 tgt1) (dump rd chunk1)) s1 s1' (shown (Ok (PBytes data))) /\ idle sys1 s1' t1' /\
    sync_wait_ends (coroutine (os_of sys2 tgt2) (restore wr chunk2 data)) s2 s2' (shown (Ok PNone)) /\ idle sys2 s2' t2' /\
    forall k, (0 <= k < n1 -> content1 t1' k = content1 t1 k /\ content2 t2' k = content1 t1 k) /\
              (n1 <= k < n2 -> content2 t2' k = content2 t2 k).
Proof. exact clone_runs. Qed.

(** One unreadable block: the coroutine that reads everything ends with AsiCheckConditionError, with the sense data of the disk. *)
Theorem C98_unreadable : forall T (sys : system T) tgt content bs n more, one_of_four sys -> reports_capacity tgt content bs n more ->
  1 <= bs < 2 ^ 32 -> 1 <= n <= 2 ^ 64 ->
  forall bad sense rd chunk k0 s t, idle sys s t -> flawed_disk tgt content bs n bad sense -> reads_up_to rd bs n chunk ->
  1 <= chunk -> chunk * bs < 2 ^ 32 -> 0 <= k0 < n -> bad k0 = true ->
  exists s' t', sync_wait_ends (coroutine (os_of sys tgt) (dump rd chunk)) s s' (shown (Err (EAsiCheckCondition (pad 255 sense)))) /\
    idle sys s' t' /\ forall k, 0 <= k < n -> content t' k = content t k.
Proof. exact @unreadable_runs. Qed.
(** One that catches this exception and then reads block by block gets all blocks that can be read, in their places. *)
Theorem C98_salvage : forall T (sys : system T) tgt content bs n more, one_of_four sys -> reports_capacity tgt content bs n more ->
  1 <= bs < 2 ^ 32 -> 1 <= n <= 2 ^ 64 ->
  forall bad sense rd chunk s t, idle sys s t -> flawed_disk tgt content bs n bad sense -> reads_up_to rd bs n chunk ->
  1 <= chunk -> chunk * bs < 2 ^ 32 ->
  exists s' t', sync_wait_ends (coroutine (os_of sys tgt) (salvage rd chunk)) s s'
      (shown (Ok (PBytes (blocks (salvaged bad bs (content t)) 0 (Z.to_nat n))))) /\
    idle sys s' t' /\ forall k, 0 <= k < n -> content t' k = content t k.
Proof. exact @salvage_runs. Qed.

(** With ReadCapacity10Command alone, a disk of more than 2^32 blocks is silently read only up to there. *)
Theorem C98_capacity10_refuted : forall T (sys : system T) tgt content bs n more, one_of_four sys -> reports_capacity tgt content bs n more ->
  1 <= bs < 2 ^ 32 -> 1 <= n <= 2 ^ 64 ->
  forall rd chunk s t, idle sys s t -> block_device tgt content bs n -> reads_up_to rd bs n chunk -> 1 <= chunk -> chunk * bs < 2 ^ 32 ->
  exists s' t', sync_wait_ends (coroutine (os_of sys tgt) (dump10 rd chunk)) s s'
      (shown (Ok (PBytes (blocks (content t) 0 (Z.to_nat (Z.min n (2 ^ 32))))))) /\
    idle sys s' t' /\ forall k, 0 <= k < n -> content t' k = content t k.
Proof. exact @dump10_runs. Qed.
(** With Read10Command, such a disk cannot be read: the first command beyond 2^32 ends it with AssertionError. *)
Theorem C98_read10_refuted : forall T (sys : system T) tgt content bs n more, one_of_four sys -> reports_capacity tgt content bs n more ->
  1 <= bs < 2 ^ 32 -> 1 <= n <= 2 ^ 64 ->
  forall chunk s t, idle sys s t -> block_device tgt content bs n -> 1 <= chunk < 2 ^ 16 -> chunk * bs < 2 ^ 32 -> 2 ^ 32 + chunk <= n ->
  exists s' t', sync_wait_ends (coroutine (os_of sys tgt) (dump (fun lba m bs => Read10 lba m bs []) chunk)) s s' (Threw EAssertion) /\
    idle sys s' t' /\ forall k, 0 <= k < n -> content t' k = content t k.
Proof. exact @ten_runs. Qed.

(** ** Examples *)

(** Which commands may be used. *)
Example C98_commands_example :
  reads_up_to (fun lba m bs => Read16 lba m bs []) 512 (2 ^ 33) 256 /\ reads_up_to (fun lba m bs => Read10 lba m bs []) 4096 (2 ^ 32) 65535 /\
  writes_up_to (fun lba data bs => Write16 lba data bs []) 512 (2 ^ 33) 256.
Proof. split; [apply sixteen_reads; lia|]. split; [apply ten_reads; lia|apply sixteen_writes; lia]. Qed.

(** MEDIUM ERROR, unrecovered read error. *)
Definition example_sense : bytes := [112; 0; 3; 0; 0; 0; 0; 10; 0; 0; 0; 0; 17; 0; 0; 0; 0; 0].
(** Such disks of any size, with any unreadable blocks. *)
Example C98_disk_example : forall bs n bad, 1 <= bs ->
  block_device (sample_disk bs n (fun _ => false) example_sense) (ram_content bs) bs n /\
  flawed_disk (sample_disk bs n bad example_sense) (ram_content bs) bs n bad example_sense /\
  reports_capacity (sample_disk bs n bad example_sense) (ram_content bs) bs n (zeros 20).
Proof.
  intros bs n bad B. split; [apply sample_works; exact B|]. split; [|apply sample_reports]. apply sample_flawed; [exact B|].
  split; [repeat constructor; unfold byte_ok; lia|]. cbn. intros [H|H]; discriminate H.
Qed.

(** Five blocks of two bytes, read in pieces of two blocks on Linux; block 3 is unreadable. *)
Definition example_blocks (k : Z) : bytes := [k; k + 16].
Definition example_linux : executer sgio (linux_world (sg_state (Z -> bytes))) := executer_init 1 (LinuxWorld [] (example_blocks, []) None).
Example C98_linux_example :
  one_of_four (linux_system (Z -> bytes) 3000) /\ idle (linux_system (Z -> bytes) 3000) example_linux example_blocks /\
  extents 0 5 2 = [(0, 2); (2, 2); (4, 1)].
Proof. split; [constructor|]. split; [repeat split; cbn; try lia; eauto|reflexivity]. Qed.
Definition ends_with (r : result pyval) (content : bytes) (bad : Z -> bool) (p : prog) : bool :=
  match sync_wait 500 (coroutine (os_of (linux_system (Z -> bytes) 3000) (sample_disk 2 5 bad example_sense)) p) example_linux with
  | Some (s, out) =>
    match out, r with
    | Returned (RVal (VData (DBytes b))), Ok (PBytes b') => same_bytes b b'
    | Returned (RVal VNone), Ok PNone => true
    | Threw (EAsiCheckCondition b), Err (EAsiCheckCondition b') => same_bytes b b'
    | Threw EValue, Err EValue => true
    | _, _ => false
    end && same_bytes (blocks (fst (l_dev (world s))) 0 5) content
  | None => false
  end.
Definition example_reader : reader := fun lba m bs => Read16 lba m bs [].
Definition example_writer : writer := fun lba data bs => Write16 lba data bs [].
Example C98_dump_example :
  ends_with (Ok (PBytes [0; 16; 1; 17; 2; 18; 3; 19; 4; 20])) [0; 16; 1; 17; 2; 18; 3; 19; 4; 20] (fun _ => false) (dump example_reader 2) = true.
Proof. vm_compute. reflexivity. Qed.
Example C98_restore_example :
  ends_with (Ok PNone) [91; 92; 93; 94; 95; 96; 3; 19; 4; 20] (fun _ => false) (restore example_writer 2 [91; 92; 93; 94; 95; 96]) = true /\
  ends_with (Err EValue) [0; 16; 1; 17; 2; 18; 3; 19; 4; 20] (fun _ => false) (restore example_writer 2 [1; 2; 3; 4; 5; 6; 7; 8; 9; 10; 11; 12]) = true.
Proof. vm_compute. auto. Qed.
Example C98_salvage_example :
  ends_with (Err (EAsiCheckCondition (pad 255 example_sense))) [0; 16; 1; 17; 2; 18; 3; 19; 4; 20] (fun k => k =? 3) (dump example_reader 2) = true /\
  ends_with (Ok (PBytes [0; 16; 1; 17; 2; 18; 0; 0; 4; 20])) [0; 16; 1; 17; 2; 18; 3; 19; 4; 20] (fun k => k =? 3) (salvage example_reader 2) = true.
Proof. vm_compute. auto. Qed.
(** A disk of 2^33 blocks: half of it is missing. *)
Example C98_capacity10_example : Z.min (2 ^ 33) (2 ^ 32) * 2 = 2 ^ 33 /\ issued (Read10 (2 ^ 32) 1 512 []) = Err EAssertion.
Proof. split; reflexivity. Qed.

(** All theorems at once: what is printed holds for each of them. *)
Definition all_theorems := (@C98_dump, @C98_restore, @C98_too_large, @C98_clone, @C98_unreadable, @C98_salvage, @C98_capacity10_refuted,
  @C98_read10_refuted).
Print Assumptions all_theorems.
