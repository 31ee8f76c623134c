(** End to end: sync_wait(command.execute(executer)) from the command object to the device
    and back (C62, C35). *)
From Coq Require Import String ZArith List Bool Lia.
From Verif Require Import Base BaseFacts Gen SpecGen Executer OsCommon OsLinux OsSolaris OsAix OsWin32 SpecSg SpecDrivers
  SpecSession ExampleLinux Instruct Command CdbBlock CdbPrimary SpecDevice SpecCdb SpecExecute ExecuteFacts DiskFacts.
Import ListNotations.
Local Open Scope string_scope.
Local Open Scope Z_scope.

(** ** C62 *)

(** Every command of the library: if its arguments are acceptable it reaches the device
    once, is understood there as what the user meant, and its result is the answer as
    classified, parsed by the class of the command. *)
Theorem C62_library_command : forall T sense_of (tgt : target T) timeout s t me c k t' a,
  linux_idle s t -> ~ In me (map fst (cb_log s)) ->
  proper c -> issued c = Ok k -> fits k -> tgt t (command_of k) (data_out k) = (t', a) -> linux_answer sense_of a ->
  interpret (command_of k) = Some (meaning c) /\
  exists s', user_runs (linux_os sense_of (honest tgt) timeout) me s (constructed c) s'
      (shown match linux_expected k a with RespExn e => Err e | RespData d => yields (constructed c) d end) /\
    linux_idle s' t'.
Proof. exact @library_command. Qed.
(** Otherwise nothing reaches the device and the executer is untouched. *)
Theorem C62_library_refused : forall T sense_of (tgt : target T) timeout s me c e, issued c = Err e -> proper c ->
  ~ arguments_fit c /\ user_runs (linux_os sense_of (honest tgt) timeout) me s (constructed c) s (Threw e).
Proof. exact @library_refused. Qed.

(** Any number of commands (of any class with an execute() of the common form). *)
Theorem C62_linux_commands : forall T sense_of (tgt : target T) timeout objs s t t' l, linux_idle s t ->
  device_session tgt linux_expected fits (linux_answer sense_of) t (map snd objs) t' l ->
  NoDup (map fst objs) -> (forall me, In me (map fst objs) -> ~ In me (map fst (cb_log s))) ->
  exists s', user_session (linux_os sense_of (honest tgt) timeout) s objs s' (map shown l) /\ linux_idle s' t'.
Proof. exact @linux_commands. Qed.
Theorem C62_solaris_commands : forall T sense_of (tgt : target T) fails timeout objs s t t' l, solaris_idle s t ->
  device_session tgt solaris_expected fits64 (fun a => byte_status a /\ fails a = false /\
    (Z.testbit (a_status a) 1 = true -> sense_of (pad 255 (a_sense a)) = Ok tt)) t (map snd objs) t' l ->
  NoDup (map fst objs) -> (forall me, In me (map fst objs) -> ~ In me (map fst (cb_log s))) ->
  exists s', user_session (solaris_os sense_of (honest_uscsi tgt fails) timeout) s objs s' (map shown l) /\ solaris_idle s' t'.
Proof. exact @solaris_commands. Qed.
Theorem C62_aix_commands : forall T sense_of (tgt : target T) timeout use_ctypes objs s t t' l, aix_idle s t ->
  device_session tgt aix_expected aix_fits (fun a =>
    Z.testbit (a_status a) 1 = true -> sense_of (pad 255 (a_sense a)) = Ok tt) t (map snd objs) t' l ->
  NoDup (map fst objs) -> (forall me, In me (map fst objs) -> ~ In me (map fst (cb_log s))) ->
  exists s', user_session (aix_os sense_of (honest_sc tgt) timeout use_ctypes) s objs s' (map shown l) /\ aix_idle s' t'.
Proof. exact @aix_commands. Qed.
Theorem C62_win_commands : forall T sense_of (tgt : target T) objs s t t' l, win_idle s t ->
  device_session tgt win_expected win_fits (fun a => a_host a = 0 /\
    (a_status a = 2 -> sense_of (pad 255 (a_sense a)) = Ok tt)) t (map snd objs) t' l ->
  NoDup (map fst objs) -> (forall me, In me (map fst objs) -> ~ In me (map fst (cb_log s))) ->
  exists s', user_session (win_os sense_of (honest_win tgt)) s objs s' (map shown l) /\ win_idle s' t'.
Proof. exact @win_commands. Qed.

(** Errors of the operating system come out as they are.  After a failed send the queue is
    as before; after a failed receive the request stays in its slot (C66). *)
Theorem C62_linux_send_fails : forall D sense_of (drv : sg_driver D) timeout s me o c h0 r h d e, request o = Ok c ->
  zlen (pending s) < max_queue_size s -> dict_get (packet_index s) (pending s) = None ->
  sgio_create (packet_index s) c timeout (l_heap (world s)) = (h0, r) ->
  sg_write drv (hdr r) h0 (l_dev (world s)) = (h, d, Err e) ->
  exists s', sync_wait_ends (execute (linux_os sense_of drv timeout) me o) s s' (Threw e) /\
    pending s' = pending s /\ cb_log s' = cb_log s.
Proof. exact @linux_send_fails. Qed.
Theorem C62_linux_receive_fails : forall D sense_of (drv : sg_driver D) timeout s me o c h0 r h d n h1 d1 e,
  request o = Ok c ->
  zlen (pending s) < max_queue_size s -> ~ In me (map fst (cb_log s)) ->
  sgio_create (packet_index s) c timeout (l_heap (world s)) = (h0, r) ->
  sg_write drv (hdr r) h0 (l_dev (world s)) = (h, d, Ok n) ->
  sg_read drv h d = (h1, d1, Err e) ->
  exists s', sync_wait_ends (execute (linux_os sense_of drv timeout) me o) s s' (Threw e) /\
    dict_get (packet_index s) (pending s') = Some (r, Some me) /\ cb_log s' = cb_log s.
Proof. exact @linux_receive_fails. Qed.

(** READ CAPACITY(10) through the whole stack: one CDB on the wire, a parsed object back. *)
Example C62_example :
  match constructed (ReadCapacity10 0 0) with
  | Ok o =>
    match sync_wait 60 (execute (linux_os any_sense
            (honest (fixed_target (Answer 0 0 0 [0; 0; 39; 15; 0; 0; 2; 0] []))) 3000) 1 o) (fresh 2) with
    | Some (s, Returned (RVal v)) =>
        fst (l_dev (world s)) = [([37; 0; 0; 0; 0; 0; 0; 0; 0; 0], [])] /\ pending s = [] /\
        v = yielded_value (PObj "ReportReadCapacityData10"
              [("last_logical_block_address", PInt 9999); ("block_length_in_bytes", PInt 512)])
    | _ => False
    end
  | Err _ => False
  end.
Proof. vm_compute. repeat split; reflexivity. Qed.
(** The hypotheses of the session theorem: a command that cannot be packed, then INQUIRY
    answered with CHECK CONDITION, then TEST UNIT READY. *)
Example C62_session_example :
  let sense := Answer 2 0 0 [] [112; 0; 5] in
  exists t', device_session (fixed_target sense) linux_expected fits (linux_answer any_sense) []
    [constructed (Read10 (-1) 1 512 []); constructed TestUnitReady] t'
    [Err EInstruct; Err (EAsiCheckCondition (pad 255 [112; 0; 5]))] /\ length t' = 1%nat.
Proof.
  assert (X : exists o, constructed TestUnitReady = Ok o /\ request o = Ok (ReadCmd [0; 0; 0; 0; 0; 0] 0)).
  { eexists. split; reflexivity. }
  destruct X as (o & C & Q). rewrite C.
  exists [([0; 0; 0; 0; 0; 0], [])]. split; [|reflexivity].
  eapply ds_not_packed; [vm_compute; reflexivity|].
  exact (ds_done (fixed_target (Answer 2 0 0 [] [112; 0; 5])) linux_expected fits (linux_answer any_sense)
    [] o (ReadCmd [0; 0; 0; 0; 0; 0] 0) _ (Answer 2 0 0 [] [112; 0; 5]) [] _ [] Q (conj eq_refl eq_refl) eq_refl
    (fun _ => eq_refl) (ds_nil _ _ _ _ _)).
Qed.
(** A driver that cannot send, or cannot receive (models no code). *)
Definition failing_driver (w r : bool) : sg_driver unit :=
  SgDriver (fun _ h d => (h, d, if w then Ok 88 else Err (EIO 5))) (fun h d => (h, d, if r then Ok None else Err (EIO 11)))
           (fun q h d => (h, d, Ok q)).
Example C62_failure_example :
  match constructed TestUnitReady with
  | Ok o =>
    (match sync_wait 60 (execute (linux_os any_sense (failing_driver false true) 3000) 1 o)
            (executer_init 2 (LinuxWorld [] tt None)) with
     | Some (s, out) => out = Threw (EIO 5) /\ pending s = [] | None => False end) /\
    (match sync_wait 60 (execute (linux_os any_sense (failing_driver true false) 3000) 1 o)
            (executer_init 2 (LinuxWorld [] tt None)) with
     | Some (s, out) => out = Threw (EIO 11) /\ length (pending s) = 1%nat | None => False end)
  | Err _ => False
  end.
Proof. vm_compute. repeat split; reflexivity. Qed.

(** ** C35 *)

(** Any number of READ and WRITE commands, of any size, on any conforming block device, give
    what an array of blocks gives; on the four systems. *)
Theorem C35_linux_disk : forall T sense_of (tgt : target T) content bs capacity,
  1 <= bs -> block_device tgt content bs capacity ->
  forall timeout (cmds : list (nat * command)) s t d d' l, linux_idle s t ->
  disk_session bs capacity d (map snd cmds) d' l ->
  (forall k, 0 <= k < capacity -> content t k = d k) ->
  NoDup (map fst cmds) -> (forall me, In me (map fst cmds) -> ~ In me (map fst (cb_log s))) ->
  exists s' t', user_session (linux_os sense_of (honest tgt) timeout) s
      (map (fun p => (fst p, constructed (snd p))) cmds) s' (map shown l) /\ linux_idle s' t' /\
    forall k, 0 <= k < capacity -> content t' k = d' k.
Proof. exact @linux_disk. Qed.
Theorem C35_solaris_disk : forall T sense_of (tgt : target T) content bs capacity,
  1 <= bs -> block_device tgt content bs capacity ->
  forall fails timeout (cmds : list (nat * command)) s t d d' l,
  (forall data, fails (good data) = false) -> solaris_idle s t ->
  disk_session bs capacity d (map snd cmds) d' l ->
  (forall k, 0 <= k < capacity -> content t k = d k) ->
  NoDup (map fst cmds) -> (forall me, In me (map fst cmds) -> ~ In me (map fst (cb_log s))) ->
  exists s' t', user_session (solaris_os sense_of (honest_uscsi tgt fails) timeout) s
      (map (fun p => (fst p, constructed (snd p))) cmds) s' (map shown l) /\ solaris_idle s' t' /\
    forall k, 0 <= k < capacity -> content t' k = d' k.
Proof. exact @solaris_disk. Qed.
Theorem C35_aix_disk : forall T sense_of (tgt : target T) content bs capacity,
  1 <= bs -> block_device tgt content bs capacity ->
  forall timeout use_ctypes (cmds : list (nat * command)) s t d d' l, aix_idle s t ->
  disk_session bs capacity d (map snd cmds) d' l ->
  (forall k, 0 <= k < capacity -> content t k = d k) ->
  NoDup (map fst cmds) -> (forall me, In me (map fst cmds) -> ~ In me (map fst (cb_log s))) ->
  exists s' t', user_session (aix_os sense_of (honest_sc tgt) timeout use_ctypes) s
      (map (fun p => (fst p, constructed (snd p))) cmds) s' (map shown l) /\ aix_idle s' t' /\
    forall k, 0 <= k < capacity -> content t' k = d' k.
Proof. exact @aix_disk. Qed.
Theorem C35_win_disk : forall T sense_of (tgt : target T) content bs capacity,
  1 <= bs -> block_device tgt content bs capacity ->
  forall (cmds : list (nat * command)) s t d d' l, win_idle s t ->
  disk_session bs capacity d (map snd cmds) d' l ->
  (forall k, 0 <= k < capacity -> content t k = d k) ->
  NoDup (map fst cmds) -> (forall me, In me (map fst cmds) -> ~ In me (map fst (cb_log s))) ->
  exists s' t', user_session (win_os sense_of (honest_win tgt)) s
      (map (fun p => (fst p, constructed (snd p))) cmds) s' (map shown l) /\ win_idle s' t' /\
    forall k, 0 <= k < capacity -> content t' k = d' k.
Proof. exact @win_disk. Qed.

(** In particular: what is written is read back, and other blocks are as they were. *)
Theorem C35_read_back : forall T sense_of (tgt : target T) content bs capacity,
  1 <= bs -> block_device tgt content bs capacity ->
  forall timeout s t me1 me2 cw cr lba data, linux_idle s t ->
  write_of cw lba data bs -> proper cw -> arguments_fit cw -> lba + zlen data / bs <= capacity -> 0 < zlen data < 2 ^ 32 ->
  read_of cr lba (zlen data / bs) bs -> proper cr -> arguments_fit cr ->
  me1 <> me2 -> ~ In me1 (map fst (cb_log s)) -> ~ In me2 (map fst (cb_log s)) ->
  exists s' t', user_session (linux_os sense_of (honest tgt) timeout) s
      [(me1, constructed cw); (me2, constructed cr)] s'
      [Returned (RVal VNone); Returned (RVal (VData (DBytes data)))] /\ linux_idle s' t'.
Proof. exact @write_read_back. Qed.
Theorem C35_read_elsewhere : forall T sense_of (tgt : target T) content bs capacity,
  1 <= bs -> block_device tgt content bs capacity ->
  forall timeout s t me1 me2 cw cr lba data lba' n, linux_idle s t ->
  write_of cw lba data bs -> proper cw -> arguments_fit cw -> lba + zlen data / bs <= capacity -> zlen data < 2 ^ 32 ->
  read_of cr lba' n bs -> proper cr -> arguments_fit cr -> lba' + n <= capacity -> 0 < n -> n * bs < 2 ^ 32 ->
  lba' + n <= lba \/ lba + zlen data / bs <= lba' ->
  me1 <> me2 -> ~ In me1 (map fst (cb_log s)) -> ~ In me2 (map fst (cb_log s)) ->
  exists s' t', user_session (linux_os sense_of (honest tgt) timeout) s
      [(me1, constructed cw); (me2, constructed cr)] s'
      [Returned (RVal VNone); Returned (RVal (VData (DBytes (blocks (content t) lba' (Z.to_nat n)))))] /\
    linux_idle s' t'.
Proof. exact @write_read_elsewhere. Qed.

(** A conforming device exists for every block size and capacity, and a run on it: blocks of
    4 bytes, WRITE(6) of 3 blocks, READ(16) of blocks 6 to 9 of which two were written. *)
Theorem C35_device_exists : forall bs capacity, 1 <= bs -> block_device (ram_disk bs) (ram_content bs) bs capacity.
Proof. exact ram_conforms. Qed.
Example C35_example :
  let os := linux_os any_sense (honest (ram_disk 4)) 3000 in
  let disk := executer_init 1 (LinuxWorld [] (fun k => [k; k; k; k], []) None) in
  match constructed (Write6 7 [1; 2; 3; 4; 5; 6; 7; 8; 9; 10; 11; 12] 4), constructed (Read16 6 4 4 [("fua", 1)]) with
  | Ok w, Ok r =>
    match sync_wait 60 (execute os 1 w) disk with
    | Some (s1, Returned (RVal VNone)) =>
      match sync_wait 60 (execute os 2 r) s1 with
      | Some (_, out) =>
          out = Returned (RVal (VData (DBytes [6; 6; 6; 6; 1; 2; 3; 4; 5; 6; 7; 8; 9; 10; 11; 12])))
      | None => False
      end
    | _ => False
    end
  | _, _ => False
  end.
Proof. vm_compute. reflexivity. Qed.
Example C35_hypotheses :
  write_of (Write6 7 [1; 2; 3; 4] 4) 7 [1; 2; 3; 4] 4 /\ proper (Write6 7 [1; 2; 3; 4] 4) /\
  arguments_fit (Write6 7 [1; 2; 3; 4] 4) /\
  read_of (Read16 7 1 4 [("fua", 1)]) 7 1 4 /\ proper (Read16 7 1 4 [("fua", 1)]) /\
  arguments_fit (Read16 7 1 4 [("fua", 1)]).
Proof. repeat split; cbn; try lia; auto; repeat constructor; cbn; auto 10; lia. Qed.

(** All theorems at once: what is printed holds for each of them. *)
Definition all_theorems := (@C62_library_command, @C62_library_refused, @C62_linux_commands, @C62_solaris_commands, @C62_aix_commands,
  @C62_win_commands, @C62_linux_send_fails, @C62_linux_receive_fails, @C35_linux_disk, @C35_solaris_disk, @C35_aix_disk, @C35_win_disk,
  @C35_read_back, @C35_read_elsewhere, @C35_device_exists).
Print Assumptions all_theorems.
