(** C87: several hosts, each on any of the four systems, share a disk with persistent reservations. *)
From Coq Require Import String ZArith List Bool Lia PeanoNat.
From Verif Require Import Base BaseFacts Gen SpecGen Executer OsCommon OsLinux OsSolaris OsAix OsWin32 SpecSg SpecDrivers
  SpecSession Instruct Command SpecDevice SpecCdb SpecExecute Sense SpecSense DiskFacts SpecReserve ReserveFacts.
Import ListNotations.
Local Open Scope string_scope.
Local Open Scope list_scope.
Local Open Scope Z_scope.

(** Any program of the hosts (registering, reserving, releasing, preempting, clearing, reading keys
    and the reservation, reading and writing blocks): every host sees what the device of SPC-4 with
    these registrations should show it, and the device ends with the right reservations and blocks. *)
Theorem C87_cluster : forall T (tgt : nat -> target T) view content bs capacity sense (sys : nat -> system T),
  1 <= bs -> shared_disk tgt view content bs capacity sense -> (forall h, one_of_four (sys h)) ->
  forall (prog : program) st d st' d' l,
  ideal_session bs capacity sense (fun h => pads (sys h)) (plain_program prog) st d st' d' l ->
  pr_ok st -> forall (hs : hosts sys) t, (forall h, exists t0, idle (sys h) (hs h) t0) -> view t = st ->
  same_blocks capacity (content t) d ->
  NoDup (map (fun p => fst (snd p)) prog) ->
  (forall h me, In me (map (fun p => fst (snd p)) prog) -> ~ In me (map fst (cb_log (hs h)))) ->
  exists hs' t', cluster_runs sys tgt hs t (objects prog) hs' t' l /\
    (forall h, exists t0, idle (sys h) (hs' h) t0) /\ view t' = st' /\ pr_ok st' /\ same_blocks capacity (content t') d'.
Proof.
  intros T tgt view content bs capacity sense sys B D F prog st d st' d' l S P hs t. unfold same_blocks.
  apply (cluster tgt view content bs capacity sense (fun h => pads (sys h)) B D sys F (fun h => eq_refl) prog st d st' d' l S P hs t).
Qed.

(** Fencing.  A host [b] that is not registered and may not write (somebody else holds a reservation):
    as long as [b] does not register and nobody else changes the reservations, each of its writes and
    each of its attempts to reserve, release, clear or preempt raises AsiSCSIError, the others see
    what they would see without [b], and the blocks are as without [b]. *)
Theorem C87_fencing : forall T (tgt : nat -> target T) view content bs capacity sense (sys : nat -> system T),
  1 <= bs -> shared_disk tgt view content bs capacity sense -> (forall h, one_of_four (sys h)) ->
  forall b (prog : program) st d st' d' l,
  ideal_session bs capacity sense (fun h => pads (sys h)) (plain_program prog) st d st' d' l ->
  Forall (quiet b) (plain_program prog) -> is_registered b st = false -> may_write b st = false ->
  pr_ok st -> forall (hs : hosts sys) t, (forall h, exists t0, idle (sys h) (hs h) t0) -> view t = st ->
  same_blocks capacity (content t) d ->
  NoDup (map (fun p => fst (snd p)) prog) ->
  (forall h me, In me (map (fun p => fst (snd p)) prog) -> ~ In me (map fst (cb_log (hs h)))) ->
  exists hs1 t1 hs2 t2,
    cluster_runs sys tgt hs t (objects prog) hs1 t1 l /\
    Forall2 (fun p r => fst p = b -> changes bs (snd p) -> r = Err EAsiSCSI) (plain_program prog) l /\
    cluster_runs sys tgt hs t (objects (without b prog)) hs2 t2 (others_results b prog l) /\
    view t1 = view t /\ view t2 = view t /\ same_blocks capacity (content t1) (content t2).
Proof. intros T tgt view content bs capacity sense sys B D F. exact (fencing tgt view content bs capacity sense B D sys F). Qed.

(** Taking over: a registered host that preempts the holder of a reservation gets it, may read and
    write, and the former holder is shut out; with types 1 and 3 everybody else is. *)
Theorem C87_preempting : forall st h key v victim ty ty0, pr_ok st -> key_of h st = Some key ->
  held st = Some (v, ty0) -> all_registrants ty0 = false -> key_of v st = Some victim -> v <> h -> valid_type ty = true ->
  exists st', pr_step h (Preempt key victim ty) st = (st', Granted) /\
    held st' = Some (h, ty) /\ is_registered h st' = true /\ may_write h st' = true /\ may_read h st' = true /\
    is_registered v st' = false /\ may_write v st' = false /\
    (ty = 1 \/ ty = 3 -> forall v', v' <> h -> may_write v' st' = false).
Proof. exact preempting. Qed.

(** Not all hosts see the same: without a reservation READ RESERVATION shows key 0 and type 0 on Linux
    (and Solaris and AIX), None on Windows. *)
Theorem C87_same_view_refuted : forall st, held st = None -> reservation_object true st <> reservation_object false st.
Proof.
  intros st H E. unfold reservation_object in E. rewrite H in E. injection E as E. discriminate E.
Qed.

(** Such disks exist. *)
Theorem C87_device_exists : forall sense bs capacity, 1 <= bs -> conforming_sense sense ->
  shared_disk (reservation_disk sense bs) fst (fun t => ram_content bs (snd t)) bs capacity sense.
Proof. exact reservation_disk_conforms. Qed.

(** Three hosts: 0 on Linux, 1 on Windows, all others on AIX. *)
Definition example_systems (h : nat) : system (pr_state * (Z -> bytes)) :=
  match h with
  | O => linux_system _ 3000
  | 1%nat => win_system _
  | _ => aix_system _ 30 true
  end.
Definition example_hosts : hosts example_systems := fun h =>
  match h with
  | O => executer_init 5 (LinuxWorld [] ((PrState 0 [] None, fun _ => []), []) None)
  | 1%nat => executer_init 1 (WinWorld [] [] (PrState 0 [] None, fun _ => []) [])
  | _ => executer_init 1 (AixWorld [] [] (PrState 0 [] None, fun _ => []) None)
  end.
Example C87_hosts_example : (forall h, one_of_four (example_systems h)) /\
  (forall h, exists t0, idle (example_systems h) (example_hosts h) t0) /\
  (forall h me, ~ In me (map fst (cb_log (example_hosts h)))) /\ pr_ok (PrState 0 [] None).
Proof.
  split; [intros [|[|h]]; constructor|]. split; [|split].
  - intros [|[|h]]; eexists; cbn [example_systems idle linux_system win_system aix_system].
    + repeat split; cbn; try lia; eauto.
    + repeat split. cbn. lia.
    + repeat split.
  - intros [|[|h]] me []. 
  - split; [cbn; lia|]. split; [constructor|]. split; [constructor|exact Logic.I].
Qed.

Lemma step_out : forall bs capacity sense padded h sa key sakey ty a st d st1 v,
  basic_fits key sakey ty [] -> action_of sa ty key sakey = Some a -> pr_step h a st = (st1, v) ->
  ideal_step bs capacity sense padded h (PrOutBasic sa key sakey ty []) st d st1 d (verdict_result sense v).
Proof.
  intros bs capacity sense padded h sa key sakey ty a st d st1 v F A E.
  replace st1 with (fst (pr_step h a st)) by (rewrite E; reflexivity).
  replace v with (snd (pr_step h a st)) by (rewrite E; reflexivity). constructor; auto.
Qed.

Lemma step_write : forall bs capacity sense padded h c lba data st d r, write_of c lba data bs -> proper c -> arguments_fit c ->
  lba + zlen data / bs <= capacity -> zlen data < 2 ^ 32 -> r = (if may_write h st then Ok PNone else Err EAsiSCSI) ->
  ideal_step bs capacity sense padded h c st d st (if may_write h st then written bs lba (zlen data / bs) data d else d) r.
Proof. intros; subst. constructor; auto. Qed.
Lemma step_read : forall bs capacity sense padded h c lba n st d r, read_of c lba n bs -> proper c -> arguments_fit c ->
  0 < n -> lba + n <= capacity -> n * bs < 2 ^ 32 ->
  r = (if may_read h st then Ok (PBytes (blocks d lba (Z.to_nat n))) else Err EAsiSCSI) ->
  ideal_step bs capacity sense padded h c st d st d r.
Proof. intros; subst. constructor; auto. Qed.

Lemma step_keys : forall bs capacity sense padded h alloc st d r, 8 <= alloc < 2 ^ 16 -> 8 * zlen (registered st) < 2 ^ 32 ->
  r = Ok (keys_shown alloc st) -> ideal_step bs capacity sense padded h (PrIn 0 alloc) st d st d r.
Proof. intros; subst. constructor; auto. Qed.
Lemma step_reservation : forall bs capacity sense padded h alloc st d r, 24 <= alloc < 2 ^ 16 ->
  r = Ok (reservation_object (padded h) st) -> ideal_step bs capacity sense padded h (PrIn 1 alloc) st d st d r.
Proof. intros; subst. constructor; auto. Qed.

(** Hosts 0 and 1 register, host 0 reserves for registrants only (type 5), host 1 writes, host 2 may
    only read; host 0 removes host 1, whose write then fails, and which still sees the reservation. *)
Example C87_session_example :
  let sense := [112; 0; 5; 0; 0; 0; 0; 10; 0; 0; 0; 0; 36; 0; 0; 0; 0; 0] in
  exists st' d', ideal_session 4 16 sense (fun h => pads (example_systems h))
    [(0%nat, PrOutBasic 6 0 11 0 []); (1%nat, PrOutBasic 0 0 22 0 []); (0%nat, PrOutBasic 1 11 0 5 []);
     (1%nat, Write6 3 [1; 2; 3; 4] 4); (2%nat, Write6 3 [9; 9; 9; 9] 4); (2%nat, Read6 3 1 4);
     (0%nat, PrOutBasic 4 11 22 5 []); (1%nat, Write6 3 [5; 6; 7; 8] 4); (1%nat, PrIn 1 24); (0%nat, PrIn 0 24);
     (1%nat, PrOutBasic 2 22 0 5 []); (0%nat, PrOutBasic 2 11 0 6 [])]
    (PrState 0 [] None) (fun _ => []) st' d'
    [Ok PNone; Ok PNone; Ok PNone;
     Ok PNone; Err EAsiSCSI; Ok (PBytes [1; 2; 3; 4]);
     Ok PNone; Err EAsiSCSI;
     Ok (PObj "PersistentReserveInReadReservationResponse"
           [("pr_generation", PInt 3); ("additional_length", PInt 16); ("reservation_key", PInt 11); ("obsolete_1", PInt 0);
            ("reserved_1", PInt 0); ("pr_type", PInt 5); ("scope", PInt 0); ("obsolete_2", PInt 0)]);
     Ok (PObj "PersistentReserveInReadKeysResponse"
           [("pr_generation", PInt 3); ("additional_length", PInt 8); ("key_list", PList [PInt 11])]);
     Err EAsiSCSI; Err (EAsiCheckCondition (pad 255 sense))] /\
  st' = PrState 3 [(0%nat, 11)] (Some (0%nat, 5)).
Proof.
  intros sense.
  assert (W : forall x y z u, proper (Write6 3 [x; y; z; u] 4) /\ arguments_fit (Write6 3 [x; y; z; u] 4))
    by (intros; repeat split; cbn; try lia; auto).
  assert (R : proper (Read6 3 1 4) /\ arguments_fit (Read6 3 1 4)) by (repeat split; cbn; lia).
  eexists. eexists. split.
  - eapply id_cons; [eapply (step_out _ _ _ _ _ _ _ _ _ _ _ _ _ Granted); [repeat split; cbn; try lia; repeat constructor; cbn; lia|reflexivity|vm_compute; reflexivity]|].
    eapply id_cons; [eapply (step_out _ _ _ _ _ _ _ _ _ _ _ _ _ Granted); [repeat split; cbn; try lia; repeat constructor; cbn; lia|reflexivity|vm_compute; reflexivity]|].
    eapply id_cons; [eapply (step_out _ _ _ _ _ _ _ _ _ _ _ _ _ Granted); [repeat split; cbn; try lia; repeat constructor; cbn; lia|reflexivity|vm_compute; reflexivity]|].
    eapply id_cons; [eapply (step_write _ _ _ _ _ _ 3 [1; 2; 3; 4]); [repeat split|exact (proj1 (W _ _ _ _))|exact (proj2 (W _ _ _ _))|apply Z.leb_le; reflexivity|apply Z.ltb_lt; reflexivity|vm_compute; reflexivity]|].
    eapply id_cons; [eapply (step_write _ _ _ _ _ _ 3 [9; 9; 9; 9]); [repeat split|exact (proj1 (W _ _ _ _))|exact (proj2 (W _ _ _ _))|apply Z.leb_le; reflexivity|apply Z.ltb_lt; reflexivity|vm_compute; reflexivity]|].
    eapply id_cons; [eapply (step_read _ _ _ _ _ _ 3 1); [repeat split; discriminate|exact (proj1 R)|exact (proj2 R)|lia|lia|lia|vm_compute; reflexivity]|].
    eapply id_cons; [eapply (step_out _ _ _ _ _ _ _ _ _ _ _ _ _ Granted); [repeat split; cbn; try lia; repeat constructor; cbn; lia|reflexivity|vm_compute; reflexivity]|].
    eapply id_cons; [eapply (step_write _ _ _ _ _ _ 3 [5; 6; 7; 8]); [repeat split|exact (proj1 (W _ _ _ _))|exact (proj2 (W _ _ _ _))|apply Z.leb_le; reflexivity|apply Z.ltb_lt; reflexivity|vm_compute; reflexivity]|].
    eapply id_cons; [eapply step_reservation; [lia|reflexivity]|].
    eapply id_cons; [eapply step_keys; [lia|reflexivity|reflexivity]|].
    eapply id_cons; [eapply (step_out _ _ _ _ _ _ _ _ _ _ _ _ _ Conflict); [repeat split; cbn; try lia; repeat constructor; cbn; lia|reflexivity|vm_compute; reflexivity]|].
    eapply id_cons; [eapply (step_out _ _ _ _ _ _ _ _ _ _ _ _ _ Rejected); [repeat split; cbn; try lia; repeat constructor; cbn; lia|reflexivity|vm_compute; reflexivity]|].
    constructor.
  - reflexivity.
Qed.

(** Host 1 holds a reservation of type 3 and host 0 preempts it. *)
Example C87_preempting_example :
  let st := PrState 7 [(0%nat, 11); (1%nat, 22); (2%nat, 22)] (Some (1%nat, 3)) in
  pr_ok st /\ key_of 0 st = Some 11 /\ key_of 1 st = Some 22 /\ may_write 0 st = false /\
  pr_step 0 (Preempt 11 22 1) st = (PrState 8 [(0%nat, 11)] (Some (0%nat, 1)), Granted) /\
  is_registered 2 (PrState 8 [(0%nat, 11)] (Some (0%nat, 1))) = false /\ may_write 2 (PrState 8 [(0%nat, 11)] (Some (0%nat, 1))) = false /\
  Forall (quiet 2) [(0%nat, Write6 3 [1; 2; 3; 4] 4); (2%nat, PrOutBasic 3 22 0 0 []); (2%nat, Write6 3 [1; 2; 3; 4] 4)].
Proof.
  intros st. split.
  - split; [cbn; lia|]. split; [repeat constructor; cbn; intuition discriminate|].
    split; [repeat constructor; cbn; lia|cbn; lia].
  - repeat split; repeat constructor; discriminate.
Qed.

(** All theorems at once: what is printed holds for each of them. *)
Definition all_theorems := (@C87_cluster, @C87_fencing, @C87_preempting, @C87_same_view_refuted, @C87_device_exists).
Print Assumptions all_theorems.
