(** C103: erasing disks and giving blocks back. *)
From Coq Require Import String ZArith List Bool Lia.
From Verif Require Import Base Gen SpecGen Executer OsCommon OsLinux OsSolaris OsAix OsWin32 SpecSg SpecDrivers SpecSession Instruct Command
  CdbPrimary SpecDevice SpecCdb SpecExecute Sense SpecSense SpecPortable SpecReserve SpecAdaptive AdaptiveFacts SpecShared SpecDiscover SpecClone CloneFacts
  SpecErase EraseFacts.
Import ListNotations.
Local Open Scope string_scope.
Local Open Scope list_scope.
Local Open Scope Z_scope.

(** A coroutine that asks for the capacity and the limits, and then writes the pattern to all blocks with WRITE SAME(16), in pieces of any size, leaves
    the pattern in every block, whatever the limit of the device is. *)
Theorem C103_erase : forall T (sys : system T) tgt content bs n page sense, one_of_four sys -> thin_disk tgt content bs n page sense ->
  forall more pattern chunk s t, idle sys s t -> full_page page -> reports_capacity tgt content bs n more ->
  1 <= bs < 2 ^ 32 -> 1 <= n <= 2 ^ 64 -> zlen pattern = bs -> bs mod 512 = 0 -> 1 <= chunk < 2 ^ 32 ->
  exists s' t', sync_wait_ends (coroutine (os_of sys tgt) (erase pattern chunk)) s s' (shown (Ok PNone)) /\
    idle sys s' t' /\ forall k, 0 <= k < n -> content t' k = pattern.
Proof. exact @erase_runs. Qed.
(** Disks with other block sizes, such as 520 bytes, cannot be erased: the library refuses the pattern, though the block size was passed to it. *)
Theorem C103_block_size_refuted : forall T (sys : system T) tgt content bs n page sense, one_of_four sys -> thin_disk tgt content bs n page sense ->
  forall more pattern chunk s t, idle sys s t -> full_page page -> reports_capacity tgt content bs n more ->
  1 <= bs < 2 ^ 32 -> 1 <= n <= 2 ^ 64 -> zlen pattern = bs -> bs mod 512 <> 0 -> 1 <= chunk ->
  exists s' t', sync_wait_ends (coroutine (os_of sys tgt) (erase pattern chunk)) s s' (Threw EAssertion) /\
    idle sys s' t' /\ forall k, 0 <= k < n -> content t' k = content t k.
Proof. exact @asserts_runs. Qed.
(** A pattern that is not one block is noticed before anything is written. *)
Theorem C103_other_pattern : forall T (sys : system T) tgt content bs n page sense, one_of_four sys -> thin_disk tgt content bs n page sense ->
  forall more pattern chunk s t, idle sys s t -> full_page page -> reports_capacity tgt content bs n more ->
  1 <= bs < 2 ^ 32 -> 1 <= n <= 2 ^ 64 -> zlen pattern <> bs ->
  exists s' t', sync_wait_ends (coroutine (os_of sys tgt) (erase pattern chunk)) s s' (Threw EValue) /\
    idle sys s' t' /\ forall k, 0 <= k < n -> content t' k = content t k.
Proof. exact @mismatch_runs. Qed.
(** A WRITE SAME of 0 blocks is not refused: it overwrites everything from [lba] to the end of the disk. *)
Theorem C103_zero_blocks_refuted : forall T (sys : system T) tgt content bs n page sense, one_of_four sys -> thin_disk tgt content bs n page sense ->
  forall data lba s t, idle sys s t -> zlen data = bs -> bs < 2 ^ 32 -> bs mod 512 = 0 -> 0 <= lba < n -> n <= 2 ^ 64 ->
  refuses_zero page = false -> longest_same page = 0 \/ n - lba <= longest_same page ->
  exists s' t', sync_wait_ends (coroutine (os_of sys tgt) (Do (WriteSame16 lba data 0 bs []) finish)) s s' (shown (Ok PNone)) /\
    idle sys s' t' /\ forall k, 0 <= k < n -> content t' k = if lba <=? k then data else content t k.
Proof. exact @zero_runs. Qed.

(** A coroutine that asks for the limits and gives ranges of blocks back with one UNMAP for each piece: afterwards exactly these blocks read as zeros. *)
Theorem C103_trim : forall T (sys : system T) tgt content bs n page sense, one_of_four sys -> thin_disk tgt content bs n page sense ->
  forall ranges s t, idle sys s t -> full_page page -> n <= 2 ^ 64 -> ranges_in n ranges -> most_blocks page <> 0 -> most_descriptors page <> 0 ->
  exists s' t', sync_wait_ends (coroutine (os_of sys tgt) (trim ranges)) s s' (shown (Ok PNone)) /\
    idle sys s' t' /\ forall k, 0 <= k < n -> content t' k = if within ranges k then zeros (Z.to_nat bs) else content t k.
Proof. exact @trim_runs. Qed.
(** If the device does not support it, the coroutine raises ValueError and nothing changes. *)
Theorem C103_unsupported : forall T (sys : system T) tgt content bs n page sense, one_of_four sys -> thin_disk tgt content bs n page sense ->
  forall ranges s t, idle sys s t -> full_page page -> most_blocks page = 0 \/ most_descriptors page = 0 ->
  exists s' t', sync_wait_ends (coroutine (os_of sys tgt) (trim ranges)) s s' (Threw EValue) /\
    idle sys s' t' /\ forall k, 0 <= k < n -> content t' k = content t k.
Proof. exact @unsupported_runs. Qed.
(** The same with a page of SBC-2, which ends before these fields; on Windows the page cannot be read. *)
Theorem C103_short_page : forall T (sys : system T) tgt content bs n page sense, one_of_four sys -> thin_disk tgt content bs n page sense ->
  forall ranges s t, idle sys s t -> bytes_ok page -> 0 < zlen page <= 20 ->
  exists s' t', sync_wait_ends (coroutine (os_of sys tgt) (trim ranges)) s s' (Threw (if pads sys then EValue else EInstruct)) /\
    idle sys s' t' /\ forall k, 0 <= k < n -> content t' k = content t k.
Proof. exact @short_runs. Qed.
(** One UNMAP for all ranges: all of it happens, if it is within the limits, or nothing, and AsiCheckConditionError is raised. *)
Theorem C103_at_once : forall T (sys : system T) tgt content bs n page sense, one_of_four sys -> thin_disk tgt content bs n page sense ->
  forall ranges s t, idle sys s t -> unmap_fits ranges [] ->
  exists s' t', sync_wait_ends (coroutine (os_of sys tgt) (trim_at_once ranges)) s s'
      (shown (if unmaps page n ranges then Ok PNone else Err (EAsiCheckCondition (pad 255 sense)))) /\
    idle sys s' t' /\ forall k, 0 <= k < n -> content t' k = if unmaps page n ranges && within ranges k then zeros (Z.to_nat bs) else content t k.
Proof. exact @at_once_runs. Qed.
(** Ranges that cannot be encoded never reach the device. *)
Theorem C103_refused : forall T (sys : system T) (tgt : target T), one_of_four sys ->
  forall ranges s t, idle sys s t -> ~ unmap_fits ranges [] ->
  exists s' e, sync_wait_ends (coroutine (os_of sys tgt) (trim_at_once ranges)) s s' (Threw e) /\ idle sys s' t.
Proof. exact @refused_runs. Qed.

(** ILLEGAL REQUEST, invalid field in parameter list. *)
Definition example_sense : bytes := [112; 0; 5; 0; 0; 0; 0; 10; 0; 0; 0; 0; 38; 0; 0; 0; 0; 0].
(** At most 3 blocks and 2 descriptors with an UNMAP command, at most 2 blocks with a WRITE SAME command. *)
Definition example_page : bytes :=
  [0; 176; 0; 60] ++ zeros 16 ++ be_bytes 4 3 ++ be_bytes 4 2 ++ zeros 8 ++ be_bytes 8 2 ++ zeros 20.
Example C103_disk_example : forall bs n page,
  thin_disk (sample_thin bs n page example_sense) (fun t => t) bs n page example_sense /\
  reports_capacity (sample_thin bs n page example_sense) (fun t => t) bs n (zeros 20).
Proof.
  intros bs n page. split; [|apply sample_tells]. apply sample_is_thin.
  split; [repeat constructor; unfold byte_ok; lia|]. cbn. intros [H|H]; discriminate H.
Qed.
Example C103_page_example : full_page example_page /\ most_blocks example_page = 3 /\ most_descriptors example_page = 2 /\
  longest_same example_page = 2 /\ refuses_zero example_page = false /\ ranges_in 7 [(1, 5); (6, 1)].
Proof.
  split; [split; [apply Forall_forall; intros x I; unfold byte_ok; vm_compute in I; intuition lia|split; vm_compute; discriminate]|]. repeat split; try reflexivity.
  repeat constructor; cbn [fst snd]; lia.
Qed.

(** Seven blocks of 512 bytes on Linux; the first byte of each is shown. *)
Definition example_blocks (k : Z) : bytes := (k + 1) :: zeros 511.
Definition example_linux : executer sgio (linux_world (sg_state (Z -> bytes))) := executer_init 1 (LinuxWorld [] (example_blocks, []) None).
Example C103_linux_example :
  one_of_four (linux_system (Z -> bytes) 3000) /\ idle (linux_system (Z -> bytes) 3000) example_linux example_blocks /\
  extents 0 7 (step_of 4 2) = [(0, 2); (2, 2); (4, 2); (6, 1)] /\ pieces 3 [(1, 5); (6, 1)] = [(1, 3); (4, 2); (6, 1)].
Proof. split; [constructor|]. split; [repeat split; cbn; try lia; eauto|]. split; reflexivity. Qed.
Definition ends_with (r : result pyval) (firsts : bytes) (bs : Z) (p : prog) : bool :=
  match sync_wait 500 (coroutine (os_of (linux_system (Z -> bytes) 3000) (sample_thin bs 7 example_page example_sense)) p) example_linux with
  | Some (s, out) =>
    match out, r with
    | Returned (RVal VNone), Ok PNone => true
    | Threw (EAsiCheckCondition b), Err (EAsiCheckCondition b') => same_bytes b b'
    | Threw EValue, Err EValue => true
    | Threw EAssertion, Err EAssertion => true
    | _, _ => false
    end && same_bytes (map (fun k => hd 0 (fst (l_dev (world s)) k)) [0; 1; 2; 3; 4; 5; 6]) firsts
  | None => false
  end.
Example C103_erase_example :
  ends_with (Ok PNone) [9; 9; 9; 9; 9; 9; 9] 512 (erase (9 :: zeros 511) 4) = true /\
  ends_with (Err EAssertion) [1; 2; 3; 4; 5; 6; 7] 520 (erase (9 :: zeros 519) 4) = true /\
  ends_with (Err EValue) [1; 2; 3; 4; 5; 6; 7] 512 (erase (9 :: zeros 1023) 4) = true.
Proof. vm_compute. auto. Qed.
(** Without regard to the limits. *)
Example C103_limit_example :
  ends_with (Err (EAsiCheckCondition (pad 255 example_sense))) [1; 2; 3; 4; 5; 6; 7] 512 (Do (WriteSame16 0 (9 :: zeros 511) 3 512 []) finish) = true /\
  ends_with (Ok PNone) [1; 2; 3; 4; 5; 9; 9] 512 (Do (WriteSame16 5 (9 :: zeros 511) 0 512 []) finish) = true.
Proof. vm_compute. auto. Qed.
Example C103_trim_example :
  ends_with (Ok PNone) [1; 0; 0; 0; 0; 0; 0] 512 (trim [(1, 5); (6, 1)]) = true /\
  ends_with (Err (EAsiCheckCondition (pad 255 example_sense))) [1; 2; 3; 4; 5; 6; 7] 512 (trim_at_once [(1, 5); (6, 1)]) = true /\
  ends_with (Ok PNone) [1; 0; 0; 4; 5; 6; 0] 512 (trim_at_once [(1, 2); (6, 1)]) = true.
Proof. vm_compute. auto. Qed.
Example C103_refused_example : ~ unmap_fits [(0, 2 ^ 32)] [] /\ unmap_fits [(2 ^ 64 - 1, 2 ^ 32 - 1)] [].
Proof.
  split; [intros (H & _); inversion H; subst; cbn [fst snd] in *; lia|].
  split; [constructor; [cbn [fst snd]; lia|constructor]|]. split; [unfold zlen; cbn [length]; lia|].
  unfold settings_fit, setting. cbn [lookup]. repeat constructor; cbn; lia.
Qed.

(** All theorems at once: what is printed holds for each of them. *)
Definition all_theorems := (@C103_erase, @C103_block_size_refuted, @C103_other_pattern, @C103_zero_blocks_refuted, @C103_trim,
  @C103_unsupported, @C103_short_page, @C103_at_once, @C103_refused).
Print Assumptions all_theorems.
