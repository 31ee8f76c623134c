(** C99: transfers of any size. *)
From Coq Require Import String ZArith List Bool Lia.
From Verif Require Import Base Gen SpecGen Executer SpecCall OsCommon OsLinux OsSolaris OsAix OsWin32 SpecSg SpecDrivers SpecSession
  Instruct Command SpecDevice SpecCdb SpecExecute Sense SessionFacts DiskFacts SpecIoctl SpecHuge HugeFacts.
Import ListNotations.
Local Open Scope string_scope.
Local Open Scope list_scope.
Local Open Scope Z_scope.

(** Any number of commands of any size on Linux: the device behind the request blocks gets only the front of the data-out, and the user
    only the front of the data-in, followed by zeros up to the size asked for. *)
Theorem C99_linux_calls : forall T A sense_of (tgt : target T) timeout cmds s t t' l, linux_idle s t ->
  Forall (fun c => zlen (command_of c) < 256) (map snd cmds) ->
  target_run (cut_short tgt) t (map snd cmds) = (t', l) ->
  Forall (fun a => is_check_condition (a_status a) (a_driver a) = true -> sense_of (pad 255 (a_sense a)) = Ok tt) l ->
  NoDup (map fst cmds) -> (forall me, In me (map fst cmds) -> ~ In me (map fst (cb_log s))) ->
  exists s', sync_calls (linux_os (A := A) sense_of (honest tgt) timeout) s cmds s'
      (map user_sees (reports linux_any (map snd cmds) l)) /\ linux_idle s' t'.
Proof. intros T A sense_of tgt timeout. apply session. apply linux_any_step. Qed.
(** The same on Windows, without the zeros. *)
Theorem C99_windows_calls : forall T A sense_of (tgt : target T) cmds s t t' l, win_idle s t ->
  Forall (fun c => zlen (command_of c) <= 16) (map snd cmds) ->
  target_run (cut_short tgt) t (map snd cmds) = (t', l) ->
  Forall (fun a => a_host a = 0 /\ (a_status a = 2 -> sense_of (pad 255 (a_sense a)) = Ok tt)) l ->
  NoDup (map fst cmds) -> (forall me, In me (map fst cmds) -> ~ In me (map fst (cb_log s))) ->
  exists s', sync_calls (win_os (A := A) sense_of (honest_win tgt)) s cmds s'
      (map user_sees (reports win_any (map snd cmds) l)) /\ win_idle s' t'.
Proof. intros T A sense_of tgt. apply session. apply win_any_step. Qed.

(** What this front is: below 4 GiB everything, above it at least 4 GiB are missing. *)
Theorem C99_front : forall data,
  (zlen data < 2 ^ 32 -> front (zlen data) data = data) /\
  (2 ^ 32 <= zlen data -> zlen (front (zlen data) data) <= zlen data - 2 ^ 32 /\ exists rest, data = front (zlen data) data ++ rest).
Proof.
  intros data. split; [apply front_all|]. intros H. destruct (front_loses data H) as [E L]. rewrite E. split; [exact L|].
  exists (skipn (Z.to_nat (announced (zlen data))) data). symmetry. apply firstn_skipn.
Qed.

(** READ of any number of blocks from a conforming disk, on Linux: None if the size is a multiple of 4 GiB, else the front and zeros. *)
Theorem C99_linux_read : forall T (tgt : target T) content bs capacity, 1 <= bs -> block_device tgt content bs capacity ->
  forall sense_of timeout s t me c lba n, linux_idle s t -> ~ In me (map fst (cb_log s)) ->
  read_of c lba n bs -> proper c -> arguments_fit c -> lba + n <= capacity ->
  exists s' t', user_runs (linux_os sense_of (honest tgt) timeout) me s (constructed c) s'
      (shown (Ok (if announced (n * bs) =? 0 then PNone
        else PBytes (front (n * bs) (blocks (content t) lba (Z.to_nat n)) ++ zeros (Z.to_nat (n * bs - announced (n * bs))))))) /\
    linux_idle s' t' /\ forall k, 0 <= k < capacity -> content t' k = content t k.
Proof. exact @linux_read_any. Qed.
(** The same with the SG_IO executer. *)
Theorem C99_ioctl_read : forall T (tgt : target T) content bs capacity, 1 <= bs -> block_device tgt content bs capacity ->
  forall sense_of timeout s t me c lba n, linux_idle s t -> ~ In me (map fst (cb_log s)) ->
  read_of c lba n bs -> proper c -> arguments_fit c -> lba + n <= capacity ->
  exists s' t', user_runs (linux_ioctl_os sense_of (honest tgt) timeout) me s (constructed c) s'
      (shown (Ok (if announced (n * bs) =? 0 then PNone
        else PBytes (front (n * bs) (blocks (content t) lba (Z.to_nat n)) ++ zeros (Z.to_nat (n * bs - announced (n * bs))))))) /\
    linux_idle s' t' /\ forall k, 0 <= k < capacity -> content t' k = content t k.
Proof. exact @ioctl_read_any. Qed.
(** On Windows: None or the front only. *)
Theorem C99_windows_read : forall T (tgt : target T) content bs capacity, 1 <= bs -> block_device tgt content bs capacity ->
  forall sense_of s t me c lba n, win_idle s t -> ~ In me (map fst (cb_log s)) ->
  read_of c lba n bs -> proper c -> arguments_fit c -> lba + n <= capacity ->
  exists s' t', user_runs (win_os sense_of (honest_win tgt)) me s (constructed c) s'
      (shown (Ok (if announced (n * bs) =? 0 then PNone else PBytes (front (n * bs) (blocks (content t) lba (Z.to_nat n)))))) /\
    win_idle s' t' /\ forall k, 0 <= k < capacity -> content t' k = content t k.
Proof. exact @win_read_any. Qed.
(** On Solaris and AIX, whose structures count in 64 bits, all blocks. *)
Theorem C99_solaris_read : forall T (tgt : target T) content bs capacity, 1 <= bs -> block_device tgt content bs capacity ->
  forall sense_of fails timeout s t me c lba n, solaris_idle s t -> ~ In me (map fst (cb_log s)) ->
  (forall data, fails (good data) = false) ->
  read_of c lba n bs -> proper c -> arguments_fit c -> lba + n <= capacity -> n * bs < 2 ^ 64 ->
  exists s' t', user_runs (solaris_os sense_of (honest_uscsi tgt fails) timeout) me s (constructed c) s'
      (shown (Ok (if n * bs =? 0 then PNone else PBytes (blocks (content t) lba (Z.to_nat n))))) /\
    solaris_idle s' t' /\ forall k, 0 <= k < capacity -> content t' k = content t k.
Proof. exact @solaris_read_any. Qed.
Theorem C99_aix_read : forall T (tgt : target T) content bs capacity, 1 <= bs -> block_device tgt content bs capacity ->
  forall sense_of timeout use_ctypes s t me c lba n, aix_idle s t -> ~ In me (map fst (cb_log s)) ->
  read_of c lba n bs -> proper c -> arguments_fit c -> lba + n <= capacity -> n * bs < 2 ^ 64 ->
  exists s' t', user_runs (aix_os sense_of (honest_sc tgt) timeout use_ctypes) me s (constructed c) s'
      (shown (Ok (if n * bs =? 0 then PNone else PBytes (blocks (content t) lba (Z.to_nat n))))) /\
    aix_idle s' t' /\ forall k, 0 <= k < capacity -> content t' k = content t k.
Proof. exact @aix_read_any. Qed.

(** WRITE of any number of blocks on Linux: the CDB announces all of them, the device gets the front of their data, and if it does not
    complain the user is told of success. *)
Theorem C99_linux_write : forall T (tgt : target T) bs, 1 <= bs ->
  forall sense_of timeout s t me c lba data, linux_idle s t -> ~ In me (map fst (cb_log s)) ->
  write_of c lba data bs -> proper c -> arguments_fit c ->
  exists cdb f, interpret cdb = Some (OpWrite lba (zlen data / bs) f) /\ protect f = 0 /\
    forall t', tgt t cdb (front (zlen data) data) = (t', good []) ->
      exists s', user_runs (linux_os sense_of (honest tgt) timeout) me s (constructed c) s' (shown (Ok PNone)) /\ linux_idle s' t'.
Proof. exact @linux_write_any. Qed.
Theorem C99_ioctl_write : forall T (tgt : target T) bs, 1 <= bs ->
  forall sense_of timeout s t me c lba data, linux_idle s t -> ~ In me (map fst (cb_log s)) ->
  write_of c lba data bs -> proper c -> arguments_fit c ->
  exists cdb f, interpret cdb = Some (OpWrite lba (zlen data / bs) f) /\ protect f = 0 /\
    forall t', tgt t cdb (front (zlen data) data) = (t', good []) ->
      exists s', user_runs (linux_ioctl_os sense_of (honest tgt) timeout) me s (constructed c) s' (shown (Ok PNone)) /\ linux_idle s' t'.
Proof. exact @ioctl_write_any. Qed.
Theorem C99_windows_write : forall T (tgt : target T) bs, 1 <= bs ->
  forall sense_of s t me c lba data, win_idle s t -> ~ In me (map fst (cb_log s)) ->
  write_of c lba data bs -> proper c -> arguments_fit c ->
  exists cdb f, interpret cdb = Some (OpWrite lba (zlen data / bs) f) /\ protect f = 0 /\
    forall t', tgt t cdb (front (zlen data) data) = (t', good []) ->
      exists s', user_runs (win_os sense_of (honest_win tgt)) me s (constructed c) s' (shown (Ok PNone)) /\ win_idle s' t'.
Proof. exact @win_write_any. Qed.
(** On Solaris and AIX the disk has all the data afterwards. *)
Theorem C99_solaris_write : forall T (tgt : target T) content bs capacity, 1 <= bs -> block_device tgt content bs capacity ->
  forall sense_of fails timeout s t me c lba data, solaris_idle s t -> ~ In me (map fst (cb_log s)) ->
  (forall data, fails (good data) = false) ->
  write_of c lba data bs -> proper c -> arguments_fit c -> lba + zlen data / bs <= capacity -> zlen data < 2 ^ 64 ->
  exists s' t', user_runs (solaris_os sense_of (honest_uscsi tgt fails) timeout) me s (constructed c) s' (shown (Ok PNone)) /\
    solaris_idle s' t' /\ forall k, 0 <= k < capacity -> content t' k = written bs lba (zlen data / bs) data (content t) k.
Proof. exact @solaris_write_any. Qed.
Theorem C99_aix_write : forall T (tgt : target T) content bs capacity, 1 <= bs -> block_device tgt content bs capacity ->
  forall sense_of timeout use_ctypes s t me c lba data, aix_idle s t -> ~ In me (map fst (cb_log s)) ->
  write_of c lba data bs -> proper c -> arguments_fit c -> lba + zlen data / bs <= capacity -> zlen data < 2 ^ 64 ->
  exists s' t', user_runs (aix_os sense_of (honest_sc tgt) timeout use_ctypes) me s (constructed c) s' (shown (Ok PNone)) /\
    aix_idle s' t' /\ forall k, 0 <= k < capacity -> content t' k = written bs lba (zlen data / bs) data (content t) k.
Proof. exact @aix_write_any. Qed.

(** The bytes that a large READ on Linux returns are those of the disk only if all bytes after the front are zero. *)
Theorem C99_right : forall T (tgt : target T) content bs capacity, 1 <= bs -> block_device tgt content bs capacity ->
  forall t c lba n, read_of c lba n bs -> proper c -> arguments_fit c -> lba + n <= capacity ->
  (front (n * bs) (blocks (content t) lba (Z.to_nat n)) ++ zeros (Z.to_nat (n * bs - announced (n * bs))) = blocks (content t) lba (Z.to_nat n)
   <-> skipn (Z.to_nat (announced (n * bs))) (blocks (content t) lba (Z.to_nat n)) = zeros (Z.to_nat (n * bs - announced (n * bs)))).
Proof.
  intros T tgt content bs capacity Hbs Dev t c lba n Rd P F In.
  apply front_right. apply (blocks_size tgt content bs capacity Hbs Dev t c lba n Rd P F In).
Qed.

(** A disk of 2^24 blocks of 512 bytes, every byte 1. *)
Definition ones : Z -> bytes := fun _ => repeat 1 512.
Definition ones_linux : executer sgio (linux_world (sg_state (Z -> bytes))) := Executer [] 3 8 [(4%nat, RespData None)] (LinuxWorld [] (ones, []) None).
Definition ones_windows : executer spt (win_world (Z -> bytes)) := Executer [] 3 8 [(4%nat, RespData None)] (WinWorld [] [] ones []).
Lemma ones_idle : linux_idle ones_linux ones /\ win_idle ones_windows ones.
Proof. split; repeat split; try (cbn; lia). exists [], None. reflexivity. Qed.
Lemma large_read : forall n, 0 <= n < 2 ^ 24 -> read_of (Read16 0 n 512 []) 0 n 512 /\ proper (Read16 0 n 512 []) /\
  arguments_fit (Read16 0 n 512 []) /\ 0 + n <= 2 ^ 24.
Proof. intros n H. split; [cbn; auto|]. split; [cbn; repeat split; try lia; repeat constructor|]. split; [cbn; repeat split; try lia; repeat constructor; cbn; lia|lia]. Qed.

(** Not everything that was asked for is returned: 4 GiB and a block. *)
Theorem C99_linux_read_refuted : exists s' t' b,
  user_runs (linux_os parse_sense (honest (ram_disk 512)) 3000) 5 ones_linux (constructed (Read16 0 8388609 512 [])) s' (shown (Ok (PBytes b))) /\
  linux_idle s' t' /\ b <> blocks (ram_content 512 ones) 0 (Z.to_nat 8388609).
Proof.
  remember 8388609 as n eqn:En. destruct (ones_lost n En) as [X Y]. destruct (large_read n ltac:(lia)) as (R & P & F & In).
  destruct (C99_linux_read _ (ram_disk 512) (ram_content 512) 512 (2 ^ 24) ltac:(lia) (ram_conforms 512 (2 ^ 24) ltac:(lia)) parse_sense 3000
    ones_linux ones 5%nat (Read16 0 n 512 []) 0 n (proj1 ones_idle) ltac:(cbn; intuition discriminate) R P F In) as (s' & t' & U & I & _).
  rewrite Y in U. change (512 =? 0) with false in U. cbv iota in U.
  eexists s', t', _. split; [exact U|]. split; [exact I|]. rewrite Y in X. exact X.
Qed.
(** Exactly 4 GiB: None, on Linux and on Windows. *)
Theorem C99_4gib_refuted :
  (exists s' t', user_runs (linux_os parse_sense (honest (ram_disk 512)) 3000) 5 ones_linux (constructed (Read16 0 8388608 512 [])) s' (shown (Ok PNone)) /\ linux_idle s' t') /\
  (exists s' t', user_runs (win_os parse_sense (honest_win (ram_disk 512))) 5 ones_windows (constructed (Read16 0 8388608 512 [])) s' (shown (Ok PNone)) /\ win_idle s' t').
Proof.
  remember 8388608 as n eqn:En. pose proof (ones_gone n En) as Y. destruct (large_read n ltac:(lia)) as (R & P & F & In). split.
  - destruct (C99_linux_read _ (ram_disk 512) (ram_content 512) 512 (2 ^ 24) ltac:(lia) (ram_conforms 512 (2 ^ 24) ltac:(lia)) parse_sense 3000
      ones_linux ones 5%nat (Read16 0 n 512 []) 0 n (proj1 ones_idle) ltac:(cbn; intuition discriminate) R P F In) as (s' & t' & U & I & _).
    rewrite Y in U. change (0 =? 0) with true in U. cbv iota in U. eauto.
  - destruct (C99_windows_read _ (ram_disk 512) (ram_content 512) 512 (2 ^ 24) ltac:(lia) (ram_conforms 512 (2 ^ 24) ltac:(lia)) parse_sense
      ones_windows ones 5%nat (Read16 0 n 512 []) 0 n (proj2 ones_idle) ltac:(cbn; intuition discriminate) R P F In) as (s' & t' & U & I & _).
    rewrite Y in U. change (0 =? 0) with true in U. cbv iota in U. eauto.
Qed.

(** The hypotheses of the theorems on the two commands. *)
Example C99_example : linux_idle ones_linux ones /\ win_idle ones_windows ones /\ block_device (ram_disk 512) (ram_content 512) 512 (2 ^ 24) /\
  (read_of (Read16 0 8388609 512 []) 0 8388609 512 /\ proper (Read16 0 8388609 512 []) /\ arguments_fit (Read16 0 8388609 512 []) /\ 0 + 8388609 <= 2 ^ 24) /\
  announced (8388609 * 512) = 512 /\ announced (65535 * 512) = 65535 * 512.
Proof.
  split; [apply ones_idle|]. split; [apply ones_idle|]. split; [apply ram_conforms; lia|]. split; [apply large_read; lia|].
  split; reflexivity.
Qed.
Example C99_write_example : forall data, zlen data = 8388609 * 512 ->
  write_of (Write16 0 data 512 []) 0 data 512 /\ proper (Write16 0 data 512 []) /\ arguments_fit (Write16 0 data 512 []) /\
  0 + zlen data / 512 <= 2 ^ 24 /\ zlen (front (zlen data) data) = 512.
Proof.
  intros data E. split; [cbn; auto|]. split; [cbn; repeat split; try lia; repeat constructor; cbn; lia|].
  split; [cbn [arguments_fit]; rewrite E; change (8388609 * 512 / 512) with 8388609; change (8388609 * 512 mod 512) with 0; repeat split; try lia; repeat constructor; cbn; lia|].
  split; [rewrite E; change (8388609 * 512 / 512) with 8388609; lia|].
  destruct (front_loses data ltac:(lia)) as [-> _]. rewrite E. reflexivity.
Qed.

(** All theorems at once: what is printed holds for each of them. *)
Definition all_theorems := (@C99_linux_calls, @C99_windows_calls, @C99_front, @C99_linux_read, @C99_ioctl_read, @C99_windows_read,
  @C99_solaris_read, @C99_aix_read, @C99_linux_write, @C99_ioctl_write, @C99_windows_write, @C99_solaris_write, @C99_aix_write, @C99_right,
  @C99_linux_read_refuted, @C99_4gib_refuted).
Print Assumptions all_theorems.
