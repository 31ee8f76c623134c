(** C82: the library on the four systems with its own sense parser; C83: programs are portable. *)
From Coq Require Import String ZArith List Bool Lia.
From Verif Require Import Base BaseFacts Gen SpecGen Executer OsCommon OsLinux OsSolaris OsAix OsWin32 SpecSg SpecDrivers
  SpecSession ExampleLinux Instruct Command CdbBlock CdbPrimary SpecDevice SpecCdb SpecExecute ExecuteFacts
  Sense SpecSense SpecPortable PortableFacts.
Import ListNotations.
Local Open Scope string_scope.
Local Open Scope Z_scope.

(** ** C82 *)

(** Every command of the library whose arguments are acceptable and whose data is less than 4 GiB, on an
    idle executer of each system, against a device whose sense data is conforming: the device understands
    what the user meant, and the user gets the answer as the system classifies it, parsed by the class of
    the command; the executer is idle again. *)
Theorem C82_linux : forall T (tgt : target T) timeout s t me c k t' a,
  linux_idle s t -> ~ In me (map fst (cb_log s)) ->
  proper c -> issued c = Ok k -> moderate k -> tgt t (command_of k) (data_out k) = (t', a) -> conforming_sense (a_sense a) ->
  interpret (command_of k) = Some (meaning c) /\
  exists s', user_runs (linux_os parse_sense (honest tgt) timeout) me s (constructed c) s'
      (shown match linux_expected k a with RespExn e => Err e | RespData d => yields (constructed c) d end) /\
    linux_idle s' t'.
Proof. exact @library_linux. Qed.

Theorem C82_solaris : forall T (tgt : target T) fails timeout s t me c k t' a,
  solaris_idle s t -> ~ In me (map fst (cb_log s)) ->
  proper c -> issued c = Ok k -> moderate k -> tgt t (command_of k) (data_out k) = (t', a) -> conforming_sense (a_sense a) ->
  byte_status a -> fails a = false ->
  interpret (command_of k) = Some (meaning c) /\
  exists s', user_runs (solaris_os parse_sense (honest_uscsi tgt fails) timeout) me s (constructed c) s'
      (shown match solaris_expected k a with RespExn e => Err e | RespData d => yields (constructed c) d end) /\
    solaris_idle s' t'.
Proof. exact @library_solaris. Qed.

Theorem C82_aix : forall T (tgt : target T) timeout use_ctypes s t me c k t' a,
  aix_idle s t -> ~ In me (map fst (cb_log s)) ->
  proper c -> issued c = Ok k -> moderate k -> tgt t (command_of k) (data_out k) = (t', a) -> conforming_sense (a_sense a) ->
  interpret (command_of k) = Some (meaning c) /\
  exists s', user_runs (aix_os parse_sense (honest_sc tgt) timeout use_ctypes) me s (constructed c) s'
      (shown match aix_expected k a with RespExn e => Err e | RespData d => yields (constructed c) d end) /\
    aix_idle s' t'.
Proof. exact @library_aix. Qed.

Theorem C82_windows : forall T (tgt : target T) s t me c k t' a,
  win_idle s t -> ~ In me (map fst (cb_log s)) ->
  proper c -> issued c = Ok k -> moderate k -> tgt t (command_of k) (data_out k) = (t', a) -> conforming_sense (a_sense a) ->
  a_host a = 0 ->
  interpret (command_of k) = Some (meaning c) /\
  exists s', user_runs (win_os parse_sense (honest_win tgt)) me s (constructed c) s'
      (shown match win_expected k a with RespExn e => Err e | RespData d => yields (constructed c) d end) /\
    win_idle s' t'.
Proof. exact @library_win. Qed.

(** Unacceptable arguments raise on every system (indeed on any executer), and nothing is sent. *)
Theorem C82_refused : forall R W H (os : os_layer R W (wire H pyval) scsi_command) s me c e,
  issued c = Err e -> proper c ->
  ~ arguments_fit c /\ user_runs os me s (constructed c) s (Threw e).
Proof. exact @refused_anywhere. Qed.

(** ** C83 *)

(** One program, four systems: if the device answers plainly, the user sees the same results in the
    same order and the device ends in the same state. *)
Theorem C83_portable : forall T (tgt : target T) fails timeout use_ctypes objs t t' l,
  (forall c a, plain c a -> fails a = false) ->
  plain_session tgt t (map snd objs) t' l -> NoDup (map fst objs) ->
  (forall s, linux_idle s t -> (forall me, In me (map fst objs) -> ~ In me (map fst (cb_log s))) ->
   exists s', user_session (linux_os parse_sense (honest tgt) timeout) s objs s' (map shown l) /\ linux_idle s' t') /\
  (forall s, solaris_idle s t -> (forall me, In me (map fst objs) -> ~ In me (map fst (cb_log s))) ->
   exists s', user_session (solaris_os parse_sense (honest_uscsi tgt fails) timeout) s objs s' (map shown l) /\ solaris_idle s' t') /\
  (forall s, aix_idle s t -> (forall me, In me (map fst objs) -> ~ In me (map fst (cb_log s))) ->
   exists s', user_session (aix_os parse_sense (honest_sc tgt) timeout use_ctypes) s objs s' (map shown l) /\ aix_idle s' t') /\
  (forall s, win_idle s t -> (forall me, In me (map fst objs) -> ~ In me (map fst (cb_log s))) ->
   exists s', user_session (win_os parse_sense (honest_win tgt)) s objs s' (map shown l) /\ win_idle s' t').
Proof. exact @portable. Qed.

(** Not so with other answers.  Less data than asked for: zeros are filled in on Linux, not on Windows
    (and no data at all is None there).  RESERVATION CONFLICT (status 24, as the host status on Linux)
    has a class of its own only there.  CONDITION MET (status 4) succeeds nowhere. *)
Theorem C83_differences_refuted : exists c short conflict met,
  linux_expected c short <> win_expected c short /\
  linux_expected c conflict <> solaris_expected c conflict /\ linux_expected c conflict <> aix_expected c conflict /\
  linux_expected c met = RespExn EAsiSCSI /\ solaris_expected c met = RespExn EAsiSCSI /\
  aix_expected c met = RespExn EAsiSCSI /\ win_expected c met = RespExn EAsiSCSI.
Proof.
  exists (ReadCmd [18; 0; 0; 0; 4; 0] 4), (Answer 0 0 0 [1; 2] []), (Answer 24 24 0 [] []), (Answer 4 0 0 [1; 2; 3; 4] []).
  split; [discriminate|]. split; [discriminate|]. split; [discriminate|]. repeat split.
Qed.

(** A program of three commands on a device that always answers READ CAPACITY data or CHECK CONDITION. *)
Example C83_session_example :
  let sense := [112; 0; 5; 0; 0; 0; 0; 10; 0; 0; 0; 0; 36; 0; 0; 0; 0; 0] in
  let tgt : target nat := fun t cdb _ =>
    (Datatypes.S t, if byte_at 0 cdb =? 37 then Answer 0 0 0 [0; 0; 39; 15; 0; 0; 2; 0] [] else Answer 2 0 8 [] sense) in
  plain_session tgt 0%nat [constructed (ReadCapacity10 0 0); constructed (Read10 (-1) 1 512 []); constructed TestUnitReady] 2%nat
    [Ok (PObj "ReportReadCapacityData10" [("last_logical_block_address", PInt 9999); ("block_length_in_bytes", PInt 512)]);
     Err EInstruct;
     Err (EAsiCheckCondition (pad 255 sense))].
Proof.
  intros sense tgt.
  assert (X : exists o, constructed TestUnitReady = Ok o /\ request o = Ok (ReadCmd [0; 0; 0; 0; 0; 0] 0))
    by (eexists; split; reflexivity).
  assert (Y : exists o, constructed (ReadCapacity10 0 0) = Ok o /\ request o = Ok (ReadCmd [37; 0; 0; 0; 0; 0; 0; 0; 0; 0] 8) /\
     plain_result o (ReadCmd [37; 0; 0; 0; 0; 0; 0; 0; 0; 0] 8) (Answer 0 0 0 [0; 0; 39; 15; 0; 0; 2; 0] []) =
     Ok (PObj "ReportReadCapacityData10" [("last_logical_block_address", PInt 9999); ("block_length_in_bytes", PInt 512)]))
    by (eexists; split; [reflexivity|split; vm_compute; reflexivity]).
  destruct X as (o & C & Q). destruct Y as (o' & C' & Q' & F'). rewrite C, C', <- F'.
  apply (ps_done tgt 0%nat o' (ReadCmd [37; 0; 0; 0; 0; 0; 0; 0; 0; 0] 8) 1%nat (Answer 0 0 0 [0; 0; 39; 15; 0; 0; 2; 0] [])); auto; try (cbn; lia).
  { split; [reflexivity|]. left. repeat split; cbn; lia. }
  apply ps_not_packed; [vm_compute; reflexivity|].
  apply (ps_done tgt 1%nat o (ReadCmd [0; 0; 0; 0; 0; 0] 0) 2%nat (Answer 2 0 8 [] sense)); auto; try (cbn; lia).
  { split; [reflexivity|]. right. split; [reflexivity|]. split; [auto|]. split; [|intros [E|E]; discriminate E].
    repeat (apply Forall_cons; [unfold byte_ok; lia|]). apply Forall_nil. }
  constructor.
Qed.

(** Idle executers of the four systems exist. *)
Example C82_idle_example :
  (exists s : executer sgio (linux_world (sg_state nat)), linux_idle s 7%nat) /\
  (exists s : executer scsicmd (solaris_world nat), solaris_idle s 7%nat) /\
  (exists s : executer passthru (aix_world nat), aix_idle s 7%nat) /\
  (exists s : executer spt (win_world nat), win_idle s 7%nat).
Proof.
  split; [|split; [|split]].
  - exists (executer_init 5 (LinuxWorld [] (7%nat, []) None)). repeat split; cbn; try lia; eauto.
  - exists (executer_init 1 (SolarisWorld [] 7%nat None)). repeat split.
  - exists (executer_init 1 (AixWorld [] [] 7%nat None)). repeat split.
  - exists (executer_init 1 (WinWorld [] [] 7%nat [])). repeat split. cbn. lia.
Qed.

(** A command meeting the hypotheses, with its answer in conforming sense data. *)
Example C82_command_example :
  let sense := [112; 0; 5; 0; 0; 0; 0; 10; 0; 0; 0; 0; 36; 0; 0; 0; 0; 0] in
  proper (Read10 2048 8 512 []) /\
  issued (Read10 2048 8 512 []) = Ok (ReadCmd [40; 0; 0; 0; 8; 0; 0; 0; 8; 0] 4096) /\
  moderate (ReadCmd [40; 0; 0; 0; 8; 0; 0; 0; 8; 0] 4096) /\ conforming_sense sense /\
  proper (Read10 (2 ^ 32) 8 512 []) /\ issued (Read10 (2 ^ 32) 8 512 []) = Err EAssertion.
Proof.
  intros sense. split; [apply Forall_nil|]. split; [vm_compute; reflexivity|]. split; [cbn; lia|].
  split; [|split; [apply Forall_nil|vm_compute; reflexivity]].
  split; [|intros [E|E]; discriminate E].
  repeat (apply Forall_cons; [unfold byte_ok; lia|]). apply Forall_nil.
Qed.

(** All theorems at once: what is printed holds for each of them. *)
Definition all_theorems := (@C82_linux, @C82_solaris, @C82_aix, @C82_windows, @C82_refused, @C83_portable, @C83_differences_refuted).
Print Assumptions all_theorems.
