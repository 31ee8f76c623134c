(** Properties of the Solaris, AIX and Windows executers: C24-C29, C69-C74. *)
From Coq Require Import ZArith List Bool Lia.
From Verif Require Import Base Gen SpecGen GenFacts Executer SpecExec SpecCall ExecFacts
  OsCommon OsLinux OsSolaris OsAix OsWin32 SpecSg SpecDrivers SpecSession
  SolarisFacts AixFacts WinFacts SessionFacts ExampleLinux ExampleOs.
Import ListNotations.
Open Scope Z_scope.

(** ** C24: Solaris, classification of responses *)

Theorem C24_classification : forall D A sense_of (drv : uscsi_driver D) timeout
    (s : executer scsicmd (solaris_world D)) response r cb sense,
  s_buffer (world s) = Some response ->
  dict_get 0 (pending s) = Some (r, cb) ->
  string_at (uscsi_rqbuf response) 255 (s_heap (world s)) = Ok sense -> sense_of sense = Ok tt ->
  (forall a, u_data_buffer r = Some a -> (a < length (s_heap (world s)))%nat) ->
  (Z.testbit (uscsi_flags (u_hdr r)) 3 = true -> u_data_buffer r <> None) ->
  exists rp, evaluates (os_receive (solaris_os (A := A) sense_of drv timeout)) (Send VNone) false s s
      (CallReturns (VData (DPair rp 0)) true) /\
    (rp = RespExn (EAsiCheckCondition sense) <-> Z.testbit (uscsi_status response) 1 = true) /\
    ((exists x, rp = RespData x) <-> uscsi_status response mod 256 = 0 /\ uscsi_rqstatus response = 0) /\
    (rp = RespExn EAsiSCSI <->
       Z.testbit (uscsi_status response) 1 = false /\
       (uscsi_status response mod 256 <> 0 \/ uscsi_rqstatus response <> 0)) /\
    (forall x, rp = RespData x ->
       if Z.testbit (uscsi_flags (u_hdr r)) 3 && negb (uscsi_buflen (u_hdr r) =? 0)
       then exists p b, u_data_buffer r = Some p /\ nth_error (s_heap (world s)) p = Some b /\ x = Some b
       else x = None).
Proof. exact (@solaris_classification). Qed.

(** The reason code in the messages is zero whatever the status says. *)
Theorem C24_reason_is_zero : forall response, solaris_reason response = 0.
Proof. exact reason_zero. Qed.

Example C24_example :
  match adapter_call 40 (sol_os (Answer 0 0 0 [7; 8] [])) 1 (ReadCmd [18; 0] 4) (sol_fresh 1),
        adapter_call 40 (sol_os (Answer 8 0 0 [] [])) 1 (ReadCmd [18; 0] 4) (sol_fresh 1),
        adapter_call 40 (sol_os (Answer 2 0 0 [] [112])) 1 (WriteCmd [18; 0] [4]) (sol_fresh 1) with
  | Some (_, a), Some (_, b), Some (_, d) =>
    a = Returned (RVal (VData (DBytes [7; 8; 0; 0]))) /\ b = Threw EAsiSCSI /\
    d = Threw (EAsiCheckCondition (112 :: zeros 254))
  | _, _, _ => False
  end.
Proof. vm_compute. repeat split; reflexivity. Qed.

(** ** C25: Solaris and AIX executers answer packet 0 only *)

(** With the single slot that is the default: any number of commands, each gets its own
    answer, and the device executed exactly these commands. *)
Theorem C25_single_slot_solaris : forall T A sense_of (tgt : target T) fails timeout cmds s t t' l,
  solaris_idle s t -> Forall fits64 (map snd cmds) -> target_run tgt t (map snd cmds) = (t', l) ->
  Forall (fun a => byte_status a /\ fails a = false /\
    (Z.testbit (a_status a) 1 = true -> sense_of (pad 255 (a_sense a)) = Ok tt)) l ->
  NoDup (map fst cmds) -> (forall me, In me (map fst cmds) -> ~ In me (map fst (cb_log s))) ->
  exists s', sync_calls (solaris_os (A := A) sense_of (honest_uscsi tgt fails) timeout) s cmds s'
      (map user_sees (reports solaris_expected (map snd cmds) l)) /\ solaris_idle s' t'.
Proof. exact (@solaris_session). Qed.

Theorem C25_single_slot_aix : forall T A sense_of (tgt : target T) timeout use_ctypes cmds s t t' l,
  aix_idle s t -> Forall aix_fits (map snd cmds) -> target_run tgt t (map snd cmds) = (t', l) ->
  Forall (fun a => Z.testbit (a_status a) 1 = true -> sense_of (pad 255 (a_sense a)) = Ok tt) l ->
  NoDup (map fst cmds) -> (forall me, In me (map fst cmds) -> ~ In me (map fst (cb_log s))) ->
  exists s', sync_calls (aix_os (A := A) sense_of (honest_sc tgt) timeout use_ctypes) s cmds s'
      (map user_sees (reports aix_expected (map snd cmds) l)) /\ aix_idle s' t'.
Proof. exact (@aix_session). Qed.

(** With any larger queue the second command is executed by the device, but its caller
    gets AttributeError or AsiInternalError and its request keeps waiting. *)
Theorem C25_second_command_solaris : forall T A sense_of (tgt : target T) fails timeout
    (s : executer scsicmd (solaris_world T)) me1 me2 c1 c2 t1 t2 a1 a2,
  pending s = [] -> packet_index s = 0 -> 2 <= max_queue_size s -> cb_log s = [] -> me1 <> me2 ->
  fits64 c1 -> fits64 c2 ->
  tgt (s_dev (world s)) (command_of c1) (data_out c1) = (t1, a1) ->
  tgt t1 (command_of c2) (data_out c2) = (t2, a2) ->
  byte_status a1 -> byte_status a2 -> fails a1 = false -> fails a2 = false ->
  (Z.testbit (a_status a1) 1 = true -> sense_of (pad 255 (a_sense a1)) = Ok tt) ->
  (Z.testbit (a_status a2) 1 = true -> sense_of (pad 255 (a_sense a2)) = Ok tt) ->
  exists s', sync_calls (solaris_os (A := A) sense_of (honest_uscsi tgt fails) timeout) s [(me1, c1); (me2, c2)] s'
      [user_sees (solaris_expected c1 a1); Threw (if a_status a2 =? 0 then EAttribute else EAsiInternal)] /\
    (exists r, dict_get 1 (pending s') = Some (r, Some me2)) /\ ~ In me2 (map fst (cb_log s')) /\ s_dev (world s') = t2.
Proof. exact (@solaris_second). Qed.

Theorem C25_second_command_aix : forall T A sense_of (tgt : target T) timeout use_ctypes
    (s : executer passthru (aix_world T)) me1 me2 c1 c2 t1 t2 a1 a2,
  pending s = [] -> packet_index s = 0 -> 2 <= max_queue_size s -> cb_log s = [] -> me1 <> me2 ->
  aix_fits c1 -> aix_fits c2 ->
  tgt (x_dev (world s)) (command_of c1) (data_out c1) = (t1, a1) ->
  tgt t1 (command_of c2) (data_out c2) = (t2, a2) ->
  (Z.testbit (a_status a1) 1 = true -> sense_of (pad 255 (a_sense a1)) = Ok tt) ->
  (Z.testbit (a_status a2) 1 = true -> sense_of (pad 255 (a_sense a2)) = Ok tt) ->
  exists s', sync_calls (aix_os (A := A) sense_of (honest_sc tgt) timeout use_ctypes) s [(me1, c1); (me2, c2)] s'
      [user_sees (aix_expected c1 a1);
       Threw (if (a_status a2 =? 0) && (a_host a2 =? 0) then EAttribute else EAsiInternal)] /\
    (exists r, dict_get 1 (pending s') = Some (r, Some me2)) /\ ~ In me2 (map fst (cb_log s')) /\ x_dev (world s') = t2.
Proof. exact (@aix_second). Qed.

(** Two reads: on one slot, and on two. *)
Example C25_example :
  let a := Answer 0 0 0 [7; 8] [] in
  match adapter_call 40 (sol_os a) 1 (ReadCmd [18; 0] 2) (sol_fresh 1),
        adapter_call 40 (sol_os a) 1 (ReadCmd [18; 0] 2) (sol_fresh 2),
        adapter_call 40 (ax_os a) 1 (ReadCmd [18; 0] 2) (ax_fresh 1),
        adapter_call 40 (ax_os a) 1 (ReadCmd [18; 0] 2) (ax_fresh 2) with
  | Some (s1, _), Some (s2, _), Some (x1, _), Some (x2, _) =>
    match adapter_call 40 (sol_os a) 2 (ReadCmd [18; 0] 2) s1,
          adapter_call 40 (sol_os a) 2 (ReadCmd [18; 0] 2) s2,
          adapter_call 40 (ax_os a) 2 (ReadCmd [18; 0] 2) x1,
          adapter_call 40 (ax_os a) 2 (ReadCmd [18; 0] 2) x2 with
    | Some (_, o1), Some (_, o2), Some (_, p1), Some (_, p2) =>
      o1 = Returned (RVal (VData (DBytes [7; 8]))) /\ o2 = Threw EAttribute /\
      p1 = Returned (RVal (VData (DBytes [7; 8]))) /\ p2 = Threw EAttribute
    | _, _, _, _ => False
    end
  | _, _, _, _ => False
  end.
Proof. vm_compute. repeat split; reflexivity. Qed.

(** ** C26: AIX, classification of responses *)

Theorem C26_classification : forall D A sense_of (drv : sc_driver D) timeout use_ctypes
    (s : executer passthru (aix_world D)) response r cb q sense,
  x_buffer (world s) = Some response ->
  dict_get 0 (pending s) = Some (r, cb) -> aix_intact (world s) r q ->
  string_at (autosense_buffer_ptr response) 255 (x_heap (world s)) = Ok sense -> sense_of sense = Ok tt ->
  exists rp, evaluates (os_receive (aix_os (A := A) sense_of drv timeout use_ctypes)) (Send VNone) false s s
      (CallReturns (VData (DPair rp 0)) true) /\
    (rp = RespExn (EAsiCheckCondition sense) <->
       status_validity response = 1 /\ Z.testbit (scsi_bus_status response) 1 = true) /\
    ((exists x, rp = RespData x) <-> status_validity response = 0) /\
    (rp = RespExn EAsiSCSI <->
       status_validity response <> 0 /\
       ~ (status_validity response = 1 /\ Z.testbit (scsi_bus_status response) 1 = true)) /\
    (forall x, rp = RespData x ->
       if Z.testbit (sc_flags q) 0 && negb (data_length q =? 0)
       then exists p b, p_data_buffer r = Some p /\ nth_error (x_heap (world s)) p = Some b /\ x = Some b
       else x = None).
Proof. exact (@aix_classification). Qed.

Example C26_example :
  match adapter_call 40 (ax_os (Answer 0 0 0 [7; 8] [])) 1 (ReadCmd [18; 0] 4) (ax_fresh 1),
        adapter_call 40 (ax_os (Answer 8 0 0 [] [])) 1 (ReadCmd [18; 0] 4) (ax_fresh 1),
        adapter_call 40 (ax_os (Answer 0 3 0 [] [])) 1 (ReadCmd [18; 0] 4) (ax_fresh 1),
        adapter_call 40 (ax_os (Answer 2 0 0 [] [112])) 1 (WriteCmd [18; 0] [4]) (ax_fresh 1) with
  | Some (_, a), Some (_, b), Some (_, c), Some (_, d) =>
    a = Returned (RVal (VData (DBytes [7; 8; 0; 0]))) /\ b = Threw EAsiSCSI /\ c = Threw EAsiSCSI /\
    d = Threw (EAsiCheckCondition (112 :: zeros 254))
  | _, _, _, _ => False
  end.
Proof. vm_compute. repeat split; reflexivity. Qed.

(** ** C27: AIX, failing ioctl *)

(** fcntl: no valid status, or an invalid-argument code, gives AsiOSError; the request is
    withdrawn. *)
Theorem C27_fcntl_failure : forall D A sense_of (drv : sc_driver D) timeout
    (s : executer passthru (aix_world D)) me c h1 q1 b h d q,
  zlen (pending s) < max_queue_size s -> dict_get (packet_index s) (pending s) = None ->
  passthru_create c timeout (x_heap (world s)) = (h1, q1, b) ->
  drv q1 h1 (x_dev (world s)) = (h, d, q, true) ->
  einval_arg q <> 0 \/ status_validity q = 0 ->
  exists s', call_evaluates (call (aix_os (A := A) sense_of drv timeout false) me c) s s' (CallRaises EAsiOS) /\
    pending s' = pending s /\ cb_log s' = cb_log s.
Proof.
  exact (fun D A sense_of drv timeout s me c h1 q1 b h d q =>
    aix_ioctl_error (A := A) sense_of drv timeout false s me c h1 q1 b h d q eq_refl).
Qed.

(** Otherwise, if the driver left a valid status, that decides, whether the ioctl failed or not. *)
Theorem C27_status_decides : forall D A sense_of (drv : sc_driver D) timeout use_ctypes
    (s : executer passthru (aix_world D)) me c h1 q1 b h d q failed sense,
  pending s = [] -> packet_index s = 0 -> 1 <= max_queue_size s -> ~ In me (map fst (cb_log s)) ->
  passthru_create c timeout (x_heap (world s)) = (h1, q1, b) ->
  drv q1 h1 (x_dev (world s)) = (h, d, q, failed) ->
  status_validity q <> 0 -> (use_ctypes = true \/ failed = false \/ einval_arg q = 0) ->
  sc_flags q = sc_flags q1 -> (length h1 <= length h)%nat ->
  string_at (autosense_buffer_ptr q) 255 h = Ok sense -> sense_of sense = Ok tt ->
  let e := if (status_validity q =? 1) && Z.testbit (scsi_bus_status q) 1 then EAsiCheckCondition sense else EAsiSCSI in
  exists s', call_evaluates (call (aix_os (A := A) sense_of drv timeout use_ctypes) me c) s s' (CallRaises e) /\
    pending s' = [] /\ cb_log s' = cb_log s ++ [(me, RespExn e)].
Proof. exact (@aix_status_decides). Qed.

(** ctypes: whether the ioctl failed makes no difference; without a valid status the call
    is successful. *)
Theorem C27_ctypes_failure_unnoticed : forall D A sense_of (drv : sc_driver D) timeout
    (s : executer passthru (aix_world D)) me c h1 q1 b h d q failed,
  pending s = [] -> packet_index s = 0 -> 1 <= max_queue_size s -> ~ In me (map fst (cb_log s)) ->
  passthru_create c timeout (x_heap (world s)) = (h1, q1, b) ->
  drv q1 h1 (x_dev (world s)) = (h, d, q, failed) ->
  status_validity q = 0 -> sc_flags q = sc_flags q1 -> (length h1 <= length h)%nat ->
  exists s' x, call_evaluates (call (aix_os (A := A) sense_of drv timeout true) me c) s s' (outcome_of (RespData x)) /\
    pending s' = [] /\ cb_log s' = cb_log s ++ [(me, RespData x)].
Proof.
  exact (fun D A sense_of drv timeout s me c h1 q1 b h d q failed =>
    aix_ctypes_unnoticed (A := A) sense_of drv timeout true s me c h1 q1 b h d q failed eq_refl).
Qed.

Example C27_example :
  let s := executer_init 1 (AixWorld [] [] tt None) in
  match adapter_call 40 (aix_os (A := unit) any_sense (broken_sc 0) 30 false) 1 (ReadCmd [18; 0] 2) s,
        adapter_call 40 (aix_os (A := unit) any_sense (broken_sc 23) 30 false) 1 (ReadCmd [18; 0] 2) s,
        adapter_call 40 (aix_os (A := unit) any_sense (broken_sc 0) 30 true) 1 (ReadCmd [18; 0] 2) s with
  | Some (s1, o1), Some (_, o2), Some (_, o3) =>
    o1 = Threw EAsiOS /\ pending s1 = [] /\ o2 = Threw EAsiOS /\ o3 = Returned (RVal (VData (DBytes [0; 0])))
  | _, _, _ => False
  end.
Proof. vm_compute. repeat split; reflexivity. Qed.

(** The ioctl fails and leaves a valid status (BUSY, or CHECK CONDITION). *)
Example C27_status_decides_example :
  let s := executer_init 1 (AixWorld [] [] tt None) in
  let failing := fun status : Z => (fun q h t =>
    (h, t, ScHdr (sc_version q) 1 status (sc_flags q) (devflags q) (command_length q) 0
       (autosense_length q) (timeout_value q) (data_length q) (sc_buffer q) (autosense_buffer_ptr q) (scsi_cdb q), true)) : sc_driver unit in
  match adapter_call 40 (aix_os (A := unit) any_sense (failing 8) 30 false) 1 (ReadCmd [18; 0] 2) s,
        adapter_call 40 (aix_os (A := unit) any_sense (failing 2) 30 true) 1 (ReadCmd [18; 0] 2) s with
  | Some (s1, o1), Some (s2, o2) =>
    o1 = Threw EAsiSCSI /\ pending s1 = [] /\ o2 = Threw (EAsiCheckCondition (zeros 255)) /\ pending s2 = []
  | _, _ => False
  end.
Proof. vm_compute. repeat split; reflexivity. Qed.

(** ** C28: Windows, classification of responses and data truncation *)

Theorem C28_classification : forall D A sense_of (drv : win_driver D)
    (s : executer spt (win_world D)) rest r q,
  incoming_packets (world s) = rest ++ [r] -> win_intact (world s) r q -> sense_of (spt_sense q) = Ok tt ->
  exists rp, evaluates (os_receive (win_os (A := A) sense_of drv)) (Send VNone) false s
      (with_world s (popped (world s) rest)) (CallReturns (VData (DPair rp (packet_id r))) true) /\
    (rp = RespExn (EAsiCheckCondition (spt_sense q)) <-> ScsiStatus q = 2) /\
    ((exists x, rp = RespData x) <-> ScsiStatus q = 0) /\
    (rp = RespExn EAsiSCSI <-> ScsiStatus q <> 0 /\ ScsiStatus q <> 2) /\
    (forall x, rp = RespData x ->
       if (DataIn q =? 1) && negb (DataTransferLength q =? 0)
       then exists p b, spt_data r = Some p /\ nth_error (w_heap (world s)) p = Some b /\
              x = Some (firstn (Z.to_nat (DataTransferLength q)) b)
       else x = None).
Proof. exact (fun D A sense_of drv s => win_classification (A := A) sense_of s). Qed.

(** Any number of commands over a device that transfers what it has: each caller gets its
    own answer, reads exactly as many bytes as the device sent (at most what was asked). *)
Theorem C28_commands_in_a_row : forall T A sense_of (tgt : target T) cmds s t t' l,
  win_idle s t -> Forall win_fits (map snd cmds) -> target_run tgt t (map snd cmds) = (t', l) ->
  Forall (fun a => a_host a = 0 /\ (a_status a = 2 -> sense_of (pad 255 (a_sense a)) = Ok tt)) l ->
  NoDup (map fst cmds) -> (forall me, In me (map fst cmds) -> ~ In me (map fst (cb_log s))) ->
  exists s', sync_calls (win_os (A := A) sense_of (honest_win tgt)) s cmds s'
      (map user_sees (reports win_expected (map snd cmds) l)) /\ win_idle s' t'.
Proof. exact (@win_session). Qed.

(** The same for one command over an asynchronous handle. *)
Theorem C28_asynchronous_handle : forall T A sense_of (tgt : target T)
    (s : executer spt (win_world T)) me c t h objs inc t' a,
  zlen (pending s) < max_queue_size s -> dict_get (packet_index s) (pending s) = None ->
  ~ In me (map fst (cb_log s)) ->
  world s = WinWorld h objs t inc -> win_fits c -> tgt t (command_of c) (data_out c) = (t', a) ->
  (a_status a = 2 -> sense_of (pad 255 (a_sense a)) = Ok tt) -> a_host a = 0 ->
  exists h' objs', call_evaluates (call (win_async_os (A := A) sense_of (honest_win tgt)) me c) s
    (Executer (pending s) ((packet_index s + 1) mod max_queue_size s) (max_queue_size s)
       (cb_log s ++ [(me, win_expected c a)]) (WinWorld h' objs' t' inc))
    (outcome_of (win_expected c a)).
Proof. exact (@win_async_call). Qed.

Example C28_example :
  match adapter_call 40 (wn_os (Answer 0 0 0 [7; 8] [])) 1 (ReadCmd [18; 0] 4) (wn_fresh 3),
        adapter_call 40 (wn_async_os (Answer 0 0 0 [7; 8] [])) 1 (ReadCmd [18; 0] 4) (wn_fresh 3),
        adapter_call 40 (wn_os (Answer 24 0 0 [] [])) 1 (ReadCmd [18; 0] 4) (wn_fresh 3),
        adapter_call 40 (wn_os (Answer 2 0 0 [] [112])) 1 (WriteCmd [18; 0] [4]) (wn_fresh 3) with
  | Some (_, a), Some (_, b), Some (_, c), Some (_, d) =>
    a = Returned (RVal (VData (DBytes [7; 8]))) /\ b = Returned (RVal (VData (DBytes [7; 8]))) /\
    c = Threw EAsiSCSI /\ d = Threw (EAsiCheckCondition (112 :: zeros 254))
  | _, _, _, _ => False
  end.
Proof. vm_compute. repeat split; reflexivity. Qed.

(** ** C29: Windows, CDB and direction in the request block *)

Theorem C29_block_describes_command : forall c h, win_fits c ->
  exists h' q b, spt_create c h = Ok (h', q, b) /\
  firstn (length h) h' = h /\
  CdbLength q = zlen (command_of c) /\ Cdb q = command_of c ++ zeros (16 - length (command_of c)) /\
  SenseInfoLength q = 255 /\ spt_sense q = zeros 255 /\ ScsiStatus q = 0 /\ TimeOutValue q = 10 /\
  DataBuffer q = b /\
  match c with
  | ReadCmd _ n =>
    if 0 <? n
    then DataIn q = 1 /\ DataTransferLength q = n /\
         exists p, b = Some p /\ nth_error h' p = Some (zeros (Z.to_nat n))
    else DataIn q = 2 /\ DataTransferLength q = 0 /\ b = None
  | WriteCmd _ data =>
    if 0 <? zlen data
    then DataIn q = 0 /\ DataTransferLength q = zlen data /\
         exists p, b = Some p /\ nth_error h' p = Some data
    else DataIn q = 2 /\ DataTransferLength q = 0 /\ b = None
  end.
Proof. exact spt_block. Qed.

Theorem C29_long_cdb : forall D A sense_of (drv : win_driver D) (s : executer spt (win_world D)) me c,
  zlen (pending s) < max_queue_size s -> 16 < zlen (command_of c) ->
  exists s', call_evaluates (call (win_os (A := A) sense_of drv) me c) s s' (CallRaises EIndex) /\
    world s' = world s /\ pending s' = pending s /\ cb_log s' = cb_log s.
Proof. exact (@win_long_cdb). Qed.

Example C29_example :
  match adapter_call 40 (wn_os (Answer 0 0 0 [] [])) 1 (WriteCmd (zeros 17) [1]) (wn_fresh 3),
        adapter_call 40 (wn_os (Answer 0 0 0 [] [])) 1 (WriteCmd [42; 1] [5; 6]) (wn_fresh 3) with
  | Some (s1, o1), Some (s2, o2) =>
    o1 = Threw EIndex /\ w_dev (world s1) = [] /\
    o2 = Returned (RVal VNone) /\ w_dev (world s2) = [([42; 1], [5; 6])]
  | _, _ => False
  end.
Proof. vm_compute. repeat split; reflexivity. Qed.

(** ** C69: Solaris, failing ioctl *)

(** Whatever status the device gave: if the ioctl fails, the caller gets IOError. *)
Theorem C69_failing_ioctl : forall T A sense_of (tgt : target T) fails timeout
    (s : executer scsicmd (solaris_world T)) me c t h buf t' a,
  zlen (pending s) < max_queue_size s -> dict_get (packet_index s) (pending s) = None ->
  world s = SolarisWorld h t buf -> fits64 c -> tgt t (command_of c) (data_out c) = (t', a) ->
  fails a = true ->
  exists s', call_evaluates (call (solaris_os (A := A) sense_of (honest_uscsi tgt fails) timeout) me c) s s'
      (CallRaises (EIO 5)) /\
    pending s' = pending s /\ cb_log s' = cb_log s /\ s_dev (world s') = t'.
Proof. exact (@solaris_ioctl_error). Qed.

Example C69_example :
  let os := solaris_os (A := unit) any_sense
              (honest_uscsi (fixed_target (Answer 2 0 0 [] [112])) (fun a => negb (a_status a =? 0))) 30 in
  match adapter_call 40 os 1 (WriteCmd [42] [1]) (sol_fresh 1) with
  | Some (s, o) => o = Threw (EIO 5) /\ pending s = [] /\ s_dev (world s) = [([42], [1])]
  | None => False
  end.
Proof. vm_compute. repeat split; reflexivity. Qed.

(** ** C70: Windows, an asynchronous transfer that fails after it was started *)

Theorem C70_failure_unnoticed : forall D A sense_of (drv : win_driver D)
    (s : executer spt (win_world D)) me c h1 q1 b h d q h2 d2 q2 n,
  zlen (pending s) < max_queue_size s -> dict_get (packet_index s) (pending s) = None ->
  ~ In me (map fst (cb_log s)) ->
  spt_create c (w_heap (world s)) = Ok (h1, q1, b) ->
  dev_start drv q1 h1 (w_dev (world s)) = (h, d, q, (false, 997)) ->
  dev_finish drv q h d = (h2, d2, q2, (false, n)) ->
  ScsiStatus q2 = 0 -> (DataIn q2 = 1 -> b <> None) -> (forall a, b = Some a -> (a < length h2)%nat) ->
  exists s' x, call_evaluates (call (win_async_os (A := A) sense_of drv) me c) s s' (outcome_of (RespData x)) /\
    pending s' = pending s /\ cb_log s' = cb_log s ++ [(me, RespData x)].
Proof. exact (@win_async_failure_unnoticed). Qed.

(** ** C71: Windows, an asynchronous request that completes at once or cannot be started *)

Theorem C71_immediate_completion_is_an_error : forall D A sense_of (drv : win_driver D)
    (s : executer spt (win_world D)) me c h1 q1 b h d q api_result last_error,
  zlen (pending s) < max_queue_size s -> dict_get (packet_index s) (pending s) = None ->
  spt_create c (w_heap (world s)) = Ok (h1, q1, b) ->
  dev_start drv q1 h1 (w_dev (world s)) = (h, d, q, (api_result, last_error)) ->
  api_result = true \/ last_error <> 997 ->
  exists s', call_evaluates (call (win_async_os (A := A) sense_of drv) me c) s s' (CallRaises EAsiOS) /\
    pending s' = pending s /\ cb_log s' = cb_log s.
Proof. exact (@win_async_immediate_call). Qed.

(** The device got the command in C71's first case. *)
Example C70_C71_example :
  match adapter_call 40 (win_async_os (A := unit) any_sense dying_win) 1 (ReadCmd [18; 0] 2) (wn_fresh 3),
        adapter_call 40 (win_async_os (A := unit) any_sense hasty_win) 1 (WriteCmd [42] [1]) (wn_fresh 3) with
  | Some (_, o1), Some (s2, o2) =>
    o1 = Returned (RVal (VData (DBytes [0; 0]))) /\
    o2 = Threw EAsiOS /\ w_dev (world s2) = [(42 :: zeros 15, [])] /\ pending s2 = []
  | _, _ => False
  end.
Proof. vm_compute. repeat split; reflexivity. Qed.

(** ** C72: Windows, failing DeviceIoControl *)

Theorem C72_failing_control : forall D A sense_of (drv : win_driver D)
    (s : executer spt (win_world D)) me c h1 q1 b h d q,
  zlen (pending s) < max_queue_size s -> dict_get (packet_index s) (pending s) = None ->
  spt_create c (w_heap (world s)) = Ok (h1, q1, b) ->
  dev_control drv q1 h1 (w_dev (world s)) = (h, d, q, None) ->
  exists s', call_evaluates (call (win_os (A := A) sense_of drv) me c) s s' (CallRaises EAsiOS) /\
    pending s' = pending s /\ cb_log s' = cb_log s.
Proof. exact (@win_control_fails). Qed.

Example C72_example :
  match adapter_call 40 (win_os (A := unit) any_sense dying_win) 1 (ReadCmd [18; 0] 2) (wn_fresh 3) with
  | Some (s, o) => o = Threw EAsiOS /\ pending s = []
  | None => False
  end.
Proof. vm_compute. repeat split; reflexivity. Qed.

(** ** C62: any number of commands in a row on Linux *)

Theorem C62_linux_session : forall T A sense_of (tgt : target T) timeout cmds s t t' l,
  linux_idle s t -> Forall fits (map snd cmds) ->
  target_run tgt t (map snd cmds) = (t', l) ->
  Forall (fun a => is_check_condition (a_status a) (a_driver a) = true -> sense_of (pad 255 (a_sense a)) = Ok tt) l ->
  NoDup (map fst cmds) -> (forall me, In me (map fst cmds) -> ~ In me (map fst (cb_log s))) ->
  exists s', sync_calls (linux_os (A := A) sense_of (honest tgt) timeout) s cmds s'
      (map user_sees (reports linux_expected (map snd cmds) l)) /\ linux_idle s' t'.
Proof. exact (@linux_session). Qed.

Example C62_linux_session_example :
  let dev := Answer 0 0 0 [7; 8] [] in
  snd (target_run (fixed_target dev) [] [ReadCmd [18; 0] 2; WriteCmd [42; 1] [5]]) = [dev; dev] /\
  linux_idle (fresh 2) [] /\
  match adapter_call 40 (fixed_os dev) 1 (ReadCmd [18; 0] 2) (fresh 2) with
  | Some (s, o1) => o1 = Returned (RVal (VData (DBytes [7; 8]))) /\
    match adapter_call 40 (fixed_os dev) 2 (WriteCmd [42; 1] [5]) s with
    | Some (s', o2) => o2 = Returned (RVal VNone) /\ fst (l_dev (world s')) = [([18; 0], []); ([42; 1], [5])]
    | None => False
    end
  | None => False
  end.
Proof. vm_compute. repeat split; try reflexivity; try discriminate. exists [], None. reflexivity. Qed.

(** ** C01: the other layers leave the executer's own attributes alone *)
Theorem C01_solaris_layer : forall D A sense_of (drv : uscsi_driver D) timeout,
  os_only_world (solaris_os (A := A) sense_of drv timeout).
Proof. exact (@solaris_only_world). Qed.
Theorem C01_aix_layer : forall D A sense_of (drv : sc_driver D) timeout use_ctypes,
  os_only_world (aix_os (A := A) sense_of drv timeout use_ctypes).
Proof. exact (@aix_only_world). Qed.
Theorem C01_win_layer : forall D A sense_of (drv : win_driver D), os_only_world (win_os (A := A) sense_of drv).
Proof. exact (@win_only_world). Qed.
Theorem C01_win_async_layer : forall D A sense_of (drv : win_driver D),
  os_only_world (win_async_os (A := A) sense_of drv).
Proof. exact (@win_async_only_world). Qed.

Print Assumptions C24_classification.
Print Assumptions C24_reason_is_zero.
Print Assumptions C25_single_slot_solaris.
Print Assumptions C25_single_slot_aix.
Print Assumptions C25_second_command_solaris.
Print Assumptions C25_second_command_aix.
Print Assumptions C26_classification.
Print Assumptions C27_fcntl_failure.
Print Assumptions C27_status_decides.
Print Assumptions C27_ctypes_failure_unnoticed.
Print Assumptions C28_classification.
Print Assumptions C28_commands_in_a_row.
Print Assumptions C28_asynchronous_handle.
Print Assumptions C29_block_describes_command.
Print Assumptions C29_long_cdb.
Print Assumptions C69_failing_ioctl.
Print Assumptions C70_failure_unnoticed.
Print Assumptions C71_immediate_completion_is_an_error.
Print Assumptions C72_failing_control.
Print Assumptions C62_linux_session.
Print Assumptions C01_solaris_layer.
Print Assumptions C01_aix_layer.
Print Assumptions C01_win_layer.
Print Assumptions C01_win_async_layer.
