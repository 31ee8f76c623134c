(** Properties of the Linux executers: C19-C23, C67, C68, and the device side of C62. *)
From Coq Require Import ZArith List Bool Lia.
From Verif Require Import Base Gen SpecGen GenFacts Executer SpecExec SpecCall ExecFacts
  OsCommon OsLinux SpecSg LinuxFacts ExampleLinux.
Import ListNotations.
Open Scope Z_scope.

(** ** C19: classification of responses *)

(** For every driver, every waiting request and every completed block: [rp] is what the
    executer makes of it. *)
Theorem C19_classification : forall D A sense_of (drv : sg_driver D) timeout
    (s : executer sgio (linux_world D)) h d response r cb sense,
  sg_read drv (l_heap (world s)) (l_dev (world s)) = (h, d, Ok (Some response)) ->
  dict_get (pack_id response) (pending s) = Some (r, cb) ->
  string_at (sbp response) 255 h = Ok sense -> sense_of sense = Ok tt -> intact h r ->
  exists rp, evaluates (os_receive (linux_os (A := A) sense_of drv timeout)) (Send VNone) false s
      (with_world s (LinuxWorld h d (l_buffer (world s))))
      (CallReturns (VData (DPair rp (pack_id response))) true) /\
    (rp = RespExn (EAsiCheckCondition sense) <->
       Z.testbit (status response) 1 = true \/ Z.testbit (driver_status response) 3 = true) /\
    ((exists x, rp = RespData x) <->
       status response = 0 /\ driver_status response mod 16 = 0 /\ host_status response = 0) /\
    (forall e, rp = RespExn e -> asi_exception e).
Proof.
  exact (fun D A sense_of drv timeout s h d response r cb sense H1 H2 H3 H4 H5 =>
    match classification (A := A) sense_of drv timeout s h d response r cb sense H1 H2 H3 H4 H5 with
    | ex_intro _ rp (conj E (conj E1 (conj E2 (conj E3 _)))) =>
      ex_intro _ rp (conj E (conj E1 (conj E2 E3)))
    end).
Qed.

(** A read of 4 bytes answered with GOOD, BUSY (8), host status 3, driver status 8. *)
Example C19_example :
  match adapter_call 40 (fixed_os (Answer 0 0 0 [7; 8] [])) 1 (ReadCmd [18; 0] 4) (fresh 2),
        adapter_call 40 (fixed_os (Answer 8 0 0 [] [])) 1 (ReadCmd [18; 0] 4) (fresh 2),
        adapter_call 40 (fixed_os (Answer 0 3 0 [] [])) 1 (ReadCmd [18; 0] 4) (fresh 2),
        adapter_call 40 (fixed_os (Answer 0 0 8 [] [112])) 1 (ReadCmd [18; 0] 4) (fresh 2) with
  | Some (_, a), Some (_, b), Some (_, c), Some (_, d) =>
    a = Returned (RVal (VData (DBytes [7; 8; 0; 0]))) /\ b = Threw EAsiSCSI /\ c = Threw EAsiSCSI /\
    d = Threw (EAsiCheckCondition (112 :: zeros 254))
  | _, _, _, _ => False
  end.
Proof. vm_compute. repeat split; reflexivity. Qed.

(** ** C20: data of successful commands *)

(** For every driver: the data is the buffer of the request as it is in memory when the
    response is read. *)
Theorem C20_data_is_the_buffer : forall D A sense_of (drv : sg_driver D) timeout
    (s : executer sgio (linux_world D)) h d response r cb idx c h0 h1,
  sg_read drv (l_heap (world s)) (l_dev (world s)) = (h, d, Ok (Some response)) ->
  dict_get (pack_id response) (pending s) = Some (r, cb) ->
  sgio_create idx c timeout h0 = (h1, r) -> fits c -> (length h1 <= length h)%nat ->
  status response = 0 -> driver_status response mod 16 = 0 -> host_status response = 0 ->
  exists x, evaluates (os_receive (linux_os (A := A) sense_of drv timeout)) (Send VNone) false s
      (with_world s (LinuxWorld h d (l_buffer (world s))))
      (CallReturns (VData (DPair (RespData x) (pack_id response))) true) /\
    match c with
    | ReadCmd _ n => if 0 <? n
                     then exists p b, data_buffer r = Some p /\ nth_error h p = Some b /\ x = Some b
                     else x = None
    | WriteCmd _ _ => x = None
    end.
Proof. exact (@received_data). Qed.

(** For a device behind a driver that follows the sg interface: exactly [n] bytes, the
    data of the device followed by zeros. *)
Theorem C20_data_of_the_device : forall T A sense_of (tgt : target T) timeout
    (s : executer sgio (linux_world (sg_state T))) me c t h buf t' a,
  zlen (pending s) < max_queue_size s -> max_queue_size s <= 2 ^ 31 ->
  0 <= packet_index s < max_queue_size s ->
  dict_get (packet_index s) (pending s) = None -> ~ In me (map fst (cb_log s)) ->
  world s = LinuxWorld h (t, []) buf -> fits c ->
  tgt t (command_of c) (data_out c) = (t', a) ->
  a_status a = 0 -> a_host a = 0 -> a_driver a mod 16 = 0 ->
  exists s', call_evaluates (call (linux_os (A := A) sense_of (honest tgt) timeout) me c) s s'
    (CallReturns match c with
     | ReadCmd _ n => if 0 <? n then VData (DBytes (pad (Z.to_nat n) (a_data a))) else VNone
     | WriteCmd _ _ => VNone
     end true).
Proof. exact (@device_data). Qed.

Example C20_example :
  match adapter_call 40 (fixed_os (Answer 0 0 0 [7; 8; 9] [])) 1 (ReadCmd [18; 0] 2) (fresh 2),
        adapter_call 40 (fixed_os (Answer 0 0 0 [7; 8; 9] [])) 1 (ReadCmd [18; 0] 0) (fresh 2),
        adapter_call 40 (fixed_os (Answer 0 0 0 [7; 8; 9] [])) 1 (WriteCmd [18; 0] [5]) (fresh 2) with
  | Some (_, a), Some (_, b), Some (_, c) =>
    a = Returned (RVal (VData (DBytes [7; 8]))) /\ b = Returned (RVal VNone) /\ c = Returned (RVal VNone)
  | _, _, _ => False
  end.
Proof. vm_compute. repeat split; reflexivity. Qed.

(** ** C21: reservation conflict and queue full *)

Theorem C21_conflict_and_queue_full : forall D A sense_of (drv : sg_driver D) timeout
    (s : executer sgio (linux_world D)) h d response r cb sense,
  sg_read drv (l_heap (world s)) (l_dev (world s)) = (h, d, Ok (Some response)) ->
  dict_get (pack_id response) (pending s) = Some (r, cb) ->
  string_at (sbp response) 255 h = Ok sense -> sense_of sense = Ok tt -> intact h r ->
  exists rp, evaluates (os_receive (linux_os (A := A) sense_of drv timeout)) (Send VNone) false s
      (with_world s (LinuxWorld h d (l_buffer (world s))))
      (CallReturns (VData (DPair rp (pack_id response))) true) /\
    (rp = RespExn EAsiReservationConflict <->
       Z.testbit (status response) 1 = false /\ Z.testbit (driver_status response) 3 = false /\
       status response <> 0 /\ host_status response = 24) /\
    (rp = RespExn EAsiQueueFull <->
       Z.testbit (status response) 1 = false /\ Z.testbit (driver_status response) 3 = false /\
       status response <> 0 /\ host_status response = 7) /\
    (rp = RespExn EAsiSCSI <->
       Z.testbit (status response) 1 = false /\ Z.testbit (driver_status response) 3 = false /\
       ~ (status response = 0 /\ driver_status response mod 16 = 0 /\ host_status response = 0) /\
       ~ (status response <> 0 /\ (host_status response = 24 \/ host_status response = 7))).
Proof.
  exact (fun D A sense_of drv timeout s h d response r cb sense H1 H2 H3 H4 H5 =>
    match classification (A := A) sense_of drv timeout s h d response r cb sense H1 H2 H3 H4 H5 with
    | ex_intro _ rp (conj E (conj _ (conj _ (conj _ E4)))) => ex_intro _ rp (conj E E4)
    end).
Qed.

(** A device that answers RESERVATION CONFLICT (status 0x18) is not reported as one. *)
Theorem C21_conflict_reported_refuted :
  exists s', sync_wait_ends (call (fixed_os (Answer 24 0 0 [] [])) 1 (WriteCmd [42] [1])) (fresh 1) s' (Threw EAsiSCSI).
Proof. exact conflict_is_plain. Qed.

Example C21_example :
  match adapter_call 40 (fixed_os (Answer 24 24 0 [] [])) 1 (WriteCmd [42] [1]) (fresh 2),
        adapter_call 40 (fixed_os (Answer 40 7 0 [] [])) 1 (WriteCmd [42] [1]) (fresh 2) with
  | Some (_, a), Some (_, b) => a = Threw EAsiReservationConflict /\ b = Threw EAsiQueueFull
  | _, _ => False
  end.
Proof. vm_compute. split; reflexivity. Qed.

(** ** C22: request blocks *)

Theorem C22_block_describes_command : forall timeout idx c h h' r,
  sgio_create idx c timeout h = (h', r) -> fits c ->
  firstn (length h) h' = h /\
  interface_id (hdr r) = 83 /\
  cmd_len (hdr r) = zlen (command_of c) /\ described_cdb (hdr r) h' = command_of c /\
  mx_sb_len (hdr r) = 255 /\ (exists p, sbp (hdr r) = Some p /\ nth_error h' p = Some (zeros 255)) /\
  (- 2 ^ 31 <= idx < 2 ^ 31 -> pack_id (hdr r) = idx) /\
  (0 <= timeout < 2 ^ 32 -> hdr_timeout (hdr r) = timeout) /\
  match c with
  | ReadCmd _ n =>
    if 0 <? n
    then dxfer_direction (hdr r) = -3 /\ dxfer_len (hdr r) = n /\ dxferp (hdr r) = data_buffer r /\
         exists p, data_buffer r = Some p /\ nth_error h' p = Some (zeros (Z.to_nat n))
    else dxfer_direction (hdr r) = -1 /\ dxfer_len (hdr r) = 0 /\ dxferp (hdr r) = None
  | WriteCmd _ data =>
    dxfer_direction (hdr r) = -2 /\ dxfer_len (hdr r) = zlen data /\ described_data (hdr r) h' = data
  end.
Proof. exact created_block. Qed.

(** Beyond that bound the length field wraps: a CDB of 256 bytes is described as empty. *)
Theorem C22_long_cdb_wraps : forall timeout idx c h h' r,
  sgio_create idx c timeout h = (h', r) -> cmd_len (hdr r) = zlen (command_of c) mod 256.
Proof. exact long_cdb. Qed.

Example C22_example :
  let (h, r) := sgio_create 5 (WriteCmd [42; 0] [9; 9; 9]) 3000 [[1]] in
  fits (WriteCmd [42; 0] [9; 9; 9]) /\ described_data (hdr r) h = [9; 9; 9] /\ pack_id (hdr r) = 5.
Proof. vm_compute. repeat split; auto. Qed.

(** ** C23: the SG_IO ioctl executer drops the statuses *)

Theorem C23_ioctl_always_success : forall T A sense_of (tgt : target T) timeout
    (s : executer sgio (linux_world (sg_state T))) me c t q h buf t' a,
  zlen (pending s) < max_queue_size s -> max_queue_size s <= 2 ^ 31 ->
  0 <= packet_index s < max_queue_size s ->
  dict_get (packet_index s) (pending s) = None -> ~ In me (map fst (cb_log s)) ->
  world s = LinuxWorld h (t, q) buf -> fits c ->
  tgt t (command_of c) (data_out c) = (t', a) ->
  exists h' buf', call_evaluates (call (linux_ioctl_os (A := A) sense_of (honest tgt) timeout) me c) s
    (Executer (pending s) ((packet_index s + 1) mod max_queue_size s) (max_queue_size s)
       (cb_log s ++ [(me, RespData (data_wanted c (a_data a)))]) (LinuxWorld h' (t', q) buf'))
    (outcome_of (RespData (data_wanted c (a_data a)))).
Proof. exact (@linux_ioctl_call). Qed.

(** A failed INQUIRY looks like a successful one with zero data. *)
Theorem C23_errors_reported_refuted :
  exists a s', is_check_condition (a_status a) (a_driver a) = true /\
    sync_wait_ends (call (fixed_ioctl_os a) 1 (ReadCmd [18; 0; 0; 0; 2; 0] 2)) (fresh 1) s'
      (Returned (RVal (VData (DBytes [0; 0])))).
Proof. exact failure_is_success. Qed.

Example C23_example :
  match adapter_call 40 (fixed_ioctl_os (Answer 2 1 8 [] [112])) 1 (ReadCmd [18] 2) (fresh 2) with
  | Some (s, o) => o = Returned (RVal (VData (DBytes [0; 0]))) /\ fst (l_dev (world s)) = [([18], [])]
  | None => False
  end.
Proof. vm_compute. split; reflexivity. Qed.

(** ** C67: a clean response that belongs to no waiting request *)

Theorem C67_clean_unknown_response : forall D A sense_of (drv : sg_driver D) timeout
    (s : executer sgio (linux_world D)) h d response,
  sg_read drv (l_heap (world s)) (l_dev (world s)) = (h, d, Ok (Some response)) ->
  dict_get (pack_id response) (pending s) = None ->
  status response = 0 -> driver_status response mod 16 = 0 -> host_status response = 0 ->
  evaluates (os_receive (linux_os (A := A) sense_of drv timeout)) (Send VNone) false s
      (with_world s (LinuxWorld h d (l_buffer (world s)))) (CallRaises EAttribute).
Proof. exact (@clean_unknown). Qed.

(** A response left over from an earlier user of the device file. *)
Definition leftover : executer sgio (linux_world (sg_state (list (bytes * bytes)))) :=
  executer_init 2 (LinuxWorld [] ([], [(hdr (snd (sgio_create 9 (ReadCmd [] 0) 3000 [])), Answer 0 0 0 [] [])]) None).
Example C67_example :
  match adapter_call 40 (fixed_os (Answer 0 0 0 [7] [])) 1 (ReadCmd [18] 1) leftover with
  | Some (s, o) => o = Threw EAttribute /\ zlen (pending s) = 1
  | None => False
  end.
Proof. vm_compute. split; reflexivity. Qed.

(** ** C68: sense data that cannot be parsed *)

Theorem C68_unparsable_sense : forall T A sense_of (tgt : target T) timeout
    (s : executer sgio (linux_world (sg_state T))) me c t h buf t' a e,
  zlen (pending s) < max_queue_size s -> max_queue_size s <= 2 ^ 31 ->
  0 <= packet_index s < max_queue_size s -> ~ In me (map fst (cb_log s)) ->
  world s = LinuxWorld h (t, []) buf -> fits c ->
  tgt t (command_of c) (data_out c) = (t', a) ->
  Z.testbit (a_status a) 1 = true -> sense_of (pad 255 (a_sense a)) = Err e ->
  exists s', call_evaluates (call (linux_os (A := A) sense_of (honest tgt) timeout) me c) s s' (CallRaises e) /\
    (exists r, dict_get (packet_index s) (pending s') = Some (r, Some me)) /\ cb_log s' = cb_log s.
Proof. exact (@bad_sense_call). Qed.

(** A parser that knows response codes 0x70-0x73 only. *)
Definition strict_sense : bytes -> result unit :=
  fun b => if (112 <=? nth 0 b 0) && (nth 0 b 0 <=? 115) then Ok tt else Err EAssertion.
Example C68_example :
  match adapter_call 40 (linux_os (A := unit) strict_sense (honest (fixed_target (Answer 2 0 0 [] []))) 3000)
          1 (ReadCmd [18] 1) (fresh 1) with
  | Some (s, o) => o = Threw EAssertion /\ zlen (pending s) = 1 /\
     adapter_call 40 (linux_os (A := unit) strict_sense (honest (fixed_target (Answer 2 0 0 [] []))) 3000)
          2 (ReadCmd [18] 1) s = Some (s, Threw EName)
  | None => False
  end.
Proof. vm_compute. repeat split; reflexivity. Qed.

(** ** C62 (device side): one command, one request, the answer as classified *)

(** For every executer with a free slot, every command, every device: the device gets
    exactly this CDB and data, once; the caller gets what [linux_expected] says; the
    queue is as before. *)
Theorem C62_linux_call : forall T A sense_of (tgt : target T) timeout
    (s : executer sgio (linux_world (sg_state T))) me c t h buf t' a,
  zlen (pending s) < max_queue_size s -> max_queue_size s <= 2 ^ 31 ->
  0 <= packet_index s < max_queue_size s ->
  dict_get (packet_index s) (pending s) = None -> ~ In me (map fst (cb_log s)) ->
  world s = LinuxWorld h (t, []) buf -> fits c ->
  tgt t (command_of c) (data_out c) = (t', a) ->
  (is_check_condition (a_status a) (a_driver a) = true -> sense_of (pad 255 (a_sense a)) = Ok tt) ->
  exists h', call_evaluates (call (linux_os (A := A) sense_of (honest tgt) timeout) me c) s
    (Executer (pending s) ((packet_index s + 1) mod max_queue_size s) (max_queue_size s)
       (cb_log s ++ [(me, linux_expected c a)]) (LinuxWorld h' (t', []) buf))
    (outcome_of (linux_expected c a)).
Proof. exact (@linux_call). Qed.

Example C62_linux_example :
  match adapter_call 40 (fixed_os (Answer 0 0 0 [7; 8] [])) 1 (WriteCmd [42; 0] [3; 4]) (fresh 2) with
  | Some (s, o) => fst (l_dev (world s)) = [([42; 0], [3; 4])] /\ pending s = [] /\ o = Returned (RVal VNone)
  | None => False
  end.
Proof. vm_compute. repeat split; reflexivity. Qed.

(** Both layers leave the executer's own attributes alone, so C01 and C65 apply. *)
Theorem C01_linux_layer : forall D A sense_of (drv : sg_driver D) timeout,
  os_only_world (linux_os (A := A) sense_of drv timeout).
Proof. exact (@linux_only_world). Qed.
Theorem C01_linux_ioctl_layer : forall D A sense_of (drv : sg_driver D) timeout,
  os_only_world (linux_ioctl_os (A := A) sense_of drv timeout).
Proof. exact (@linux_ioctl_only_world). Qed.

Print Assumptions C19_classification.
Print Assumptions C20_data_is_the_buffer.
Print Assumptions C20_data_of_the_device.
Print Assumptions C21_conflict_and_queue_full.
Print Assumptions C21_conflict_reported_refuted.
Print Assumptions C22_block_describes_command.
Print Assumptions C22_long_cdb_wraps.
Print Assumptions C23_ioctl_always_success.
Print Assumptions C23_errors_reported_refuted.
Print Assumptions C67_clean_unknown_response.
Print Assumptions C68_unparsable_sense.
Print Assumptions C62_linux_call.
Print Assumptions C01_linux_layer.
Print Assumptions C01_linux_ioctl_layer.
