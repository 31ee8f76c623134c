(** C92: how long a command may take. *)
From Coq Require Import ZArith List Bool Lia.
From Verif Require Import Base Gen SpecGen Executer OsCommon OsLinux OsSolaris SpecSg SpecDrivers SpecSession Sense SpecSense SpecPortable
  Contexts SpecTimeout TimeoutFacts.
Import ListNotations.
Local Open Scope Z_scope.

(** Every context manager on every system where it yields an executer (linux_dm on Linux
    only): a command that needs at most the time in the table is answered; one that needs
    longer is given up, which raises, except under linux_dm, where a buffer of zeros is
    returned. *)
Theorem C92_managers : forall T (tgt : timed_target T) mc m p k c t t' a ms,
  executer_shown m p = Some k -> (k = CLinuxIoctl -> p = PLinux) -> 60000 <= patience mc ->
  tgt t (command_of c) (data_out c) = (t', a, ms) -> reached a -> zlen (command_of c) <= 16 -> moderate c ->
  exists timeout,
    (forall V (body : executer_class * option Z -> result V),
      with_statement m p (Ok tt) (Ok tt) body = ([Opened (file_shown p); Closed], body (k, timeout))) /\
    (ms <= limit_ms m p -> asks tgt mc (k, timeout) c t (answer_shown k c a) t') /\
    (limit_ms m p < ms -> asks tgt mc (k, timeout) c t (failure_shown k c) (aborted mc t)).
Proof. exact managed. Qed.

(** What the body of the with statement gets, and on what file it works: the system decides,
    not the name of the manager, but for linux_dm and for the timeout of linux_sg. *)
Theorem C92_handed_over : forall V m p open_result close_result (body : executer_class * option Z -> result V) k,
  executer_shown m p = Some k -> open_result = Ok tt ->
  exists timeout, with_statement m p open_result close_result body =
    ([Opened (file_shown p); Closed], match close_result with Ok _ => body (k, timeout) | Err e => Err e end) /\
    holds_timeout (k, timeout) /\
    ((k = CLinuxIoctl -> p = PLinux) -> forall default, allowed default (k, timeout) = Some (limit_ms m p)).
Proof. exact handed_over. Qed.

(** An executer constructed with a timeout of one's own (the sg executer: as long as the
    reader does not lose patience). *)
Theorem C92_executer : forall T (tgt : timed_target T) mc k c t t' a ms, holds_timeout k ->
  tgt t (command_of c) (data_out c) = (t', a, ms) -> reached a -> zlen (command_of c) <= 16 -> moderate c ->
  (fst k = CLinux -> over_at (allowed (sg_default mc) k) ms <= patience mc) ->
  let l := late (allowed (sg_default mc) k) ms in
  asks tgt mc k c t (if l then failure_shown (fst k) c else answer_shown (fst k) c a) (if l then aborted mc t else t').
Proof. exact @asked. Qed.

(** With the sg executer a longer timeout is of no use beyond the reader's patience: reading
    raises IOError although the command goes on, and its slot stays taken. *)
Theorem C92_reader_gives_up : forall T (tgt : timed_target T) mc timeout c t t' a ms, 0 <= timeout < 4294967296 ->
  tgt t (command_of c) (data_out c) = (t', a, ms) -> zlen (command_of c) <= 16 -> moderate c ->
  patience mc < over_at (allowed (sg_default mc) (CLinux, Some timeout)) ms ->
  exists s', sync_wait_ends (call (linux_os (A := unit) parse_sense (timed_sg tgt mc) timeout) 0%nat c)
      (executer_init 15 (LinuxWorld [] (t, []) None)) s' (Threw (EIO 0)) /\
    (exists r, dict_get 0 (pending s') = Some (r, Some 0%nat)) /\ cb_log s' = [].
Proof. exact @asked_too_long. Qed.

(** On Solaris the field is a short: larger numbers of seconds change, even to negative ones. *)
Theorem C92_solaris_short : forall c timeout h,
  let n := uscsi_timeout (u_hdr (snd (scsicmd_create c timeout h))) in
  -32768 <= n < 32768 /\ (n - timeout) mod 65536 = 0.
Proof.
  intros c timeout h. destruct (scsicmd_create c timeout h) as [h' r] eqn:E. cbn [snd]. cbv zeta.
  rewrite (scsicmd_limit _ _ _ _ _ E). unfold c_short, c_signed. change (2 ^ (16 - 1)) with 32768. change (2 ^ 16) with 65536.
  pose proof (Z.mod_pos_bound (timeout + 32768) 65536 ltac:(lia)). split; [lia|].
  replace ((timeout + 32768) mod 65536 - 32768 - timeout) with (- (65536 * ((timeout + 32768) / 65536)))
    by (pose proof (Z.div_mod (timeout + 32768) 65536 ltac:(lia)); lia).
  rewrite <- Z.mul_opp_r, Z.mul_comm. apply Z.mod_mul. lia.
Qed.

(** A device that answers with its state and five bytes, in that many milliseconds. *)
Definition ex92_device (ms : Z) : timed_target Z := fun t c d => (t + 1, Answer 0 0 0 [t; 1; 2; 3; 4] [], ms).
Definition ex92_machine : machine Z := Machine 60000 60500 true (fun t => t + 100).
Definition ex92_inquiry : scsi_command := ReadCmd [18; 0; 0; 0; 5; 0] 5.

Example C92_example_conditions : forall ms,
  ex92_device ms 7 (command_of ex92_inquiry) (data_out ex92_inquiry) = (8, Answer 0 0 0 [7; 1; 2; 3; 4] [], ms) /\
  reached (Answer 0 0 0 [7; 1; 2; 3; 4] []) /\ zlen (command_of ex92_inquiry) <= 16 /\ moderate ex92_inquiry.
Proof.
  intros ms. split; [reflexivity|]. split; [|split; cbn; lia].
  split; [reflexivity|]. split; [unfold byte_status; cbn; lia|]. intros [H|H]; exfalso; apply H; reflexivity.
Qed.

(** Five seconds: too long for linux_sg on Linux, not for linux_dm; not too long for linux_sg
    on Solaris, where the 3000 milliseconds are taken for seconds.  Forty seconds: too long
    for linux_dm, which returns zeros as if they were data. *)
Example C92_example_five_seconds :
  asks (ex92_device 5000) ex92_machine (CLinux, Some 3000) ex92_inquiry 7 (RespExn EAsiSCSI) 107 /\
  asks (ex92_device 5000) ex92_machine (CLinuxIoctl, None) ex92_inquiry 7 (RespData (Some [7; 1; 2; 3; 4])) 8 /\
  asks (ex92_device 5000) ex92_machine (CSolaris, Some 3000) ex92_inquiry 7 (RespData (Some [7; 1; 2; 3; 4])) 8 /\
  asks (ex92_device 40000) ex92_machine (CLinuxIoctl, None) ex92_inquiry 7 (RespData (Some [0; 0; 0; 0; 0])) 107.
Proof.
  assert (H : forall k ms, holds_timeout k ->
    (fst k = CLinux -> over_at (allowed (sg_default ex92_machine) k) ms <= patience ex92_machine) ->
    let l := late (allowed (sg_default ex92_machine) k) ms in
    asks (ex92_device ms) ex92_machine k ex92_inquiry 7
      (if l then failure_shown (fst k) ex92_inquiry else answer_shown (fst k) ex92_inquiry (Answer 0 0 0 [7; 1; 2; 3; 4] []))
      (if l then 107 else 8)).
  { intros k ms Hk Hp. destruct (C92_example_conditions ms) as (E1 & E2 & E3 & E4).
    exact (C92_executer Z (ex92_device ms) ex92_machine k ex92_inquiry 7 8 _ ms Hk E1 E2 E3 E4 Hp). }
  split; [|split; [|split]].
  - apply (H (CLinux, Some 3000) 5000); cbn; lia.
  - apply (H (CLinuxIoctl, None) 5000); [cbn; lia|discriminate].
  - apply (H (CSolaris, Some 3000) 5000); [cbn; lia|discriminate].
  - apply (H (CLinuxIoctl, None) 40000); [cbn; lia|discriminate].
Qed.

Example C92_example_patience :
  patience ex92_machine < over_at (allowed (sg_default ex92_machine) (CLinux, Some 120000)) 90000 /\
  over_at (allowed (sg_default ex92_machine) (CLinux, Some 120000)) 55000 <= patience ex92_machine.
Proof. vm_compute. split; [reflexivity|discriminate]. Qed.

(** So one number does not mean the same everywhere: with timeout=60 a command of 40 seconds
    is answered on AIX and Solaris and fails on Linux; and 60000, a minute on Linux, is a
    negative number of seconds on Solaris. *)
Theorem C92_one_number_refuted :
  asks (ex92_device 40000) ex92_machine (CAix, Some 60) ex92_inquiry 7 (RespData (Some [7; 1; 2; 3; 4])) 8 /\
  asks (ex92_device 40000) ex92_machine (CSolaris, Some 60) ex92_inquiry 7 (RespData (Some [7; 1; 2; 3; 4])) 8 /\
  asks (ex92_device 40000) ex92_machine (CLinux, Some 60) ex92_inquiry 7 (RespExn EAsiSCSI) 107 /\
  uscsi_timeout (u_hdr (snd (scsicmd_create ex92_inquiry 60000 []))) = -5536.
Proof.
  destruct (C92_example_conditions 40000) as (E1 & E2 & E3 & E4).
  split; [|split; [|split; [|reflexivity]]].
  - apply (C92_executer Z (ex92_device 40000) ex92_machine (CAix, Some 60) ex92_inquiry 7 8 _ 40000 ltac:(cbn; lia) E1 E2 E3 E4). discriminate.
  - apply (C92_executer Z (ex92_device 40000) ex92_machine (CSolaris, Some 60) ex92_inquiry 7 8 _ 40000 ltac:(cbn; lia) E1 E2 E3 E4). discriminate.
  - apply (C92_executer Z (ex92_device 40000) ex92_machine (CLinux, Some 60) ex92_inquiry 7 8 _ 40000 ltac:(cbn; lia) E1 E2 E3 E4). cbn. lia.
Qed.

Print Assumptions C92_managers.
Print Assumptions C92_handed_over.
Print Assumptions C92_executer.
Print Assumptions C92_reader_gives_up.
Print Assumptions C92_solaris_short.
Print Assumptions C92_one_number_refuted.
