(** C100: READ FULL STATUS. *)
From Coq Require Import String ZArith List Bool Lia.
From Verif Require Import Base BaseFacts Gen SpecGen Executer SpecCall OsCommon OsLinux OsSolaris OsAix OsWin32
  SpecSg SpecDrivers SpecSession Instruct Command CdbPrimary SpecDevice SpecCdb SpecExecute SpecPortable PortableFacts SpecReserve
  SpecAdaptive SpecStatus StatusFacts.
Import ListNotations.
Local Open Scope string_scope.
Local Open Scope list_scope.
Local Open Scope Z_scope.

(** What comes of [n] bytes of what the device says, followed by whatever else is in the buffer. *)
Theorem C100_parsed : forall alloc g l rest n, 8 <= alloc -> status_ok g l -> bytes_ok rest ->
  yields (pr_in 3 alloc) (Some (firstn n (status_data g l ++ rest))) = status_read n g l.
Proof. exact status_parsed. Qed.
(** If all of it arrives, so do all registrations, with every field as reported. *)
Theorem C100_whole : forall g l n, status_ok g l -> (8 + length (all_bytes l) <= n)%nat ->
  status_read n g l = Ok (whole_status g l).
Proof. exact status_whole. Qed.
(** Cut after a descriptor: the others are missing, and nothing is raised. *)
Theorem C100_boundary : forall g l1 l2, status_ok g (l1 ++ l2) -> l1 ++ l2 <> [] ->
  status_read (8 + length (all_bytes l1)) g (l1 ++ l2) =
  Ok (status_object g (l1 ++ l2) (PList (map (fun x => nexus_object x (n_transport x)) l1))).
Proof.
  intros g l1 l2 (_ & F & _) N. unfold status_read.
  replace (8 + length (all_bytes l1) <? 8)%nat with false by (symmetry; apply Nat.ltb_ge; lia).
  replace (8 + length (all_bytes l1) - 8)%nat with (length (all_bytes l1)) by lia.
  rewrite visible_boundary by exact F. destruct (l1 ++ l2); [contradiction|reflexivity].
Qed.
(** Cut within the descriptor of [x]: an error if nothing of its TransportID is there, and else
    the descriptor with the beginning of the TransportID. *)
Theorem C100_cut : forall g l1 x l2 j, status_ok g (l1 ++ x :: l2) -> (0 < j <= length (nexus_bytes x))%nat ->
  status_read (8 + (length (all_bytes l1) + j)) g (l1 ++ x :: l2) =
  if (j <=? 24)%nat then Err EInstruct
  else Ok (status_object g (l1 ++ x :: l2)
        (PList (map (fun y => nexus_object y (n_transport y)) l1 ++ [nexus_object x (firstn (j - 24) (n_transport x))]))).
Proof.
  intros g l1 x l2 j (_ & F & _) J. unfold status_read.
  replace (8 + (length (all_bytes l1) + j) <? 8)%nat with false by (symmetry; apply Nat.ltb_ge; lia).
  replace (8 + (length (all_bytes l1) + j) - 8)%nat with (length (all_bytes l1) + j)%nat by lia.
  rewrite (visible_cut l1 x l2 j F J). destruct (j <=? 24)%nat; destruct l1; reflexivity.
Qed.

(** PersistentReserveInCommand(service_action=3, allocation_length=alloc), executed on the four systems. *)
Theorem C100_call : forall T (sys : system T) tgt g l alloc t s, one_of_four sys -> idle sys s t ->
  reports_status tgt g l -> 8 <= alloc < 2 ^ 16 ->
  exists s' t', sync_wait_ends (coroutine (os_of sys tgt) (Do (PrIn 3 alloc) finish)) s s'
      (shown (status_read (Z.to_nat alloc) g l)) /\ idle sys s' t'.
Proof. exact (fun T => @status_run T). Qed.
(** Asking for 8 bytes first, and then for additional_length + 8, gets them all. *)
Theorem C100_fetch : forall T (sys : system T) tgt g l t s, one_of_four sys -> idle sys s t ->
  reports_status tgt g l -> 8 + zlen (all_bytes l) < 2 ^ 16 ->
  exists s' t', sync_wait_ends (coroutine (os_of sys tgt) fetch_status) s s' (shown (Ok (whole_status g l))) /\ idle sys s' t'.
Proof. exact (fun T => @fetch_status_run T). Qed.
(** ... unless they are more than the 16-bit allocation length can say: then the second command is refused. *)
Theorem C100_fetch_too_long : forall T (sys : system T) tgt g l t s, one_of_four sys -> idle sys s t ->
  reports_status tgt g l -> 2 ^ 16 <= 8 + zlen (all_bytes l) ->
  exists s' e cdb, interpret cdb = Some (OpPrIn 3 8) /\
    sync_wait_ends (coroutine (os_of sys tgt) fetch_status) s s' (shown (Err e)) /\ idle sys s' (fst (tgt t cdb [])).
Proof. exact (fun T => @fetch_long_run T). Qed.

(** * Examples *)

Definition fibre_id (key : Z) : bytes := [0; 0; 0; 0; 0; 0; 0; 0] ++ be_bytes 8 (80 * 2 ^ 56 + key) ++ zeros 8.
Lemma fibre_id_fits : forall key, zlen (fibre_id key) = 24 /\ bytes_ok (fibre_id key).
Proof.
  intros key. unfold fibre_id. generalize (80 * 2 ^ 56 + key). intros v. split.
  - unfold zlen. rewrite !app_length, be_bytes_length. reflexivity.
  - apply bytes_ok_app. split; [repeat constructor; unfold byte_ok; lia|]. apply bytes_ok_app. split; [apply be_bytes_ok|apply bytes_ok_zeros].
Qed.
(** Fibre Channel: 24 bytes of TransportID, protocol identifier 0, the port name in bytes 8 to 15. *)
Definition fibre (key port : Z) : nexus := Nexus key [0; 0; 0; 0] 0 1 0 5 0 [0; 0; 0; 0] port (fibre_id key).
Definition iscsi_id : bytes := [69; 0; 0; 24] ++ repeat 105 20 ++ zeros 4.
Lemma iscsi_id_fits : zlen iscsi_id = 28 /\ bytes_ok iscsi_id.
Proof. split; [reflexivity|]. repeat constructor; unfold byte_ok; lia. Qed.
(** iSCSI: protocol identifier 5, format code 1, here 28 bytes. The reserved bits are set. *)
Definition iscsi (key port : Z) : nexus := Nexus key [1; 2; 3; 4] 1 0 63 5 0 [5; 6; 7; 8] port iscsi_id.
Lemma nexus_fits : forall key g1 h a b g2 port id, 0 <= key < 2 ^ 64 -> (length g1 = 4%nat /\ bytes_ok g1) -> 0 <= h < 2 -> 0 <= a < 2 -> 0 <= b < 64 ->
  (length g2 = 4%nat /\ bytes_ok g2) -> 0 <= port < 2 ^ 16 -> (1 <= zlen id < 2 ^ 32 /\ bytes_ok id) -> nexus_ok (Nexus key g1 h a b 5 0 g2 port id).
Proof.
  intros key g1 h a b g2 port id H1 H2 H3 H4 H5 H6 H7 H8. unfold nexus_ok.
  cbn [n_key n_gap1 n_holder n_all_ports n_bits n_type n_scope n_gap2 n_port n_transport].
  split; [exact H1|]. split; [exact H2|]. split; [exact H3|]. split; [exact H4|]. split; [exact H5|].
  split; [lia|]. split; [lia|]. split; [exact H6|]. split; [exact H7|]. exact H8.
Qed.
Ltac four := split; [reflexivity|repeat constructor; unfold byte_ok; lia].
Lemma fibre_ok : forall key port, 0 <= key < 2 ^ 64 -> 0 <= port < 2 ^ 16 -> nexus_ok (fibre key port).
Proof.
  intros key port K P. unfold fibre. destruct (fibre_id_fits key) as [L O].
  apply nexus_fits; auto; try lia; try four. rewrite L. split; [lia|exact O].
Qed.
Lemma iscsi_ok : forall key port, 0 <= key < 2 ^ 64 -> 0 <= port < 2 ^ 16 -> nexus_ok (iscsi key port).
Proof.
  intros key port K P. unfold iscsi. destruct iscsi_id_fits as [L O].
  apply nexus_fits; auto; try lia; try four. rewrite L. split; [lia|exact O].
Qed.

Definition eleven : list nexus := map (fun k => fibre k 1) [1; 2; 3; 4; 5; 6; 7; 8; 9; 10; 11].
Definition mixed : list nexus := iscsi 20 1 :: iscsi 21 2 :: map (fun k => fibre k 1) [1; 2; 3; 4; 5; 6; 7; 8; 9].
Lemma some_ok : status_ok 7 eleven /\ status_ok 9 mixed /\ status_ok 7 [].
Proof.
  split; [|split].
  - split; [lia|]. split; [|vm_compute; reflexivity]. unfold eleven. cbn [map].
    repeat (apply Forall_cons; [apply fibre_ok; lia|]). apply Forall_nil.
  - split; [lia|]. split; [|vm_compute; reflexivity]. unfold mixed. cbn [map].
    do 2 (apply Forall_cons; [apply iscsi_ok; lia|]). repeat (apply Forall_cons; [apply fibre_ok; lia|]). apply Forall_nil.
  - split; [lia|]. split; [apply Forall_nil|vm_compute; reflexivity].
Qed.

(** A device that counts the commands. *)
Definition status_device (g : Z) (l : list nexus) (t : nat) (cdb data : bytes) : nat * answer :=
  (Datatypes.S t, match interpret cdb with Some (OpPrIn 3 alloc) => good (firstn (Z.to_nat alloc) (status_data g l)) | _ => good [] end).
Lemma status_device_reports : forall g l, status_ok g l -> reports_status (status_device g l) g l.
Proof.
  intros g l O. constructor; [exact O|]. intros t cdb data alloc E. unfold status_device. rewrite E. eauto.
Qed.
Definition status_linux : executer sgio (linux_world (sg_state nat)) := executer_init 1 (LinuxWorld [] (0%nat, []) None).

Example C100_device_example : reports_status (status_device 7 eleven) 7 eleven /\ reports_status (status_device 9 mixed) 9 mixed /\
  8 + zlen (all_bytes eleven) = 536 /\ 8 + zlen (all_bytes mixed) = 544.
Proof.
  destruct some_ok as (A & B & _). split; [apply status_device_reports; exact A|]. split; [apply status_device_reports; exact B|].
  split; reflexivity.
Qed.
Example C100_whole_example : whole_status 9 [iscsi 20 1] =
  PObj "PersistentReserveInReadFullStatusResponse"
    [("pr_generation", PInt 9); ("additional_length", PInt 52);
     ("full_status_descriptors", PList
       [PObj "PersistentReserveInReadFullStatusDescriptor"
         [("reservation_key", PInt 20); ("reservation_holder", PInt 1); ("all_target_ports", PInt 0);
          ("pr_type", PInt 5); ("scope", PInt 0); ("relative_target_port_identifier", PInt 1);
          ("additional_length", PInt 28);
          ("transport_id", PObj "TransportId"
            [("protocol_identifier", PInt 5); ("reserved_1", PInt 0); ("format_code", PInt 1);
             ("specific_data", PBytes ([0; 0; 24] ++ repeat 105 20 ++ zeros 4))])]])].
Proof. vm_compute. reflexivity. Qed.
Example C100_parsed_example : yields (pr_in 3 520) (Some (status_data 9 [iscsi 20 1; fibre 3 2] ++ zeros 412)) =
  Ok (whole_status 9 [iscsi 20 1; fibre 3 2]).
Proof. vm_compute. reflexivity. Qed.
Example C100_empty_example : yields (pr_in 3 520) (Some (status_data 7 [])) = Ok (whole_status 7 []) /\
  whole_status 7 [] = PObj "PersistentReserveInReadFullStatusResponse"
    [("pr_generation", PInt 7); ("additional_length", PInt 0); ("full_status_descriptors", PNone)].
Proof. vm_compute. auto. Qed.
Example C100_boundary_example : exists l1 l2, eleven = l1 ++ l2 /\ length l1 = 10%nat /\ length l2 = 1%nat /\ length (all_bytes l1) = 480%nat.
Proof. exists (firstn 10 eleven), (skipn 10 eleven). vm_compute. auto. Qed.

(** The default allocation length: of the TransportID of the last of eleven Fibre Channel ports
    only 8 bytes are left, without its port name, and nothing is raised... *)
Theorem C100_default_refuted : status_read 520 7 eleven =
    Ok (status_object 7 eleven (PList (map (fun k => nexus_object (fibre k 1) (n_transport (fibre k 1))) [1; 2; 3; 4; 5; 6; 7; 8; 9; 10] ++
          [nexus_object (fibre 11 1) [0; 0; 0; 0; 0; 0; 0; 0]]))) /\
  status_read 520 7 eleven <> Ok (whole_status 7 eleven).
Proof.
  split; [vm_compute; reflexivity|].
  intros H. assert (X : (match status_read 520 7 eleven with Ok (PObj _ [_; _; (_, PList l)]) =>
      match rev l with PObj _ [_; _; _; _; _; _; _; (_, PObj _ [_; _; _; (_, PBytes d)])] :: _ => length d | _ => 0%nat end | _ => 0%nat end) =
    (match Ok (whole_status 7 eleven) : result pyval with Ok (PObj _ [_; _; (_, PList l)]) =>
      match rev l with PObj _ [_; _; _; _; _; _; _; (_, PObj _ [_; _; _; (_, PBytes d)])] :: _ => length d | _ => 0%nat end | _ => 0%nat end))
    by (rewrite H; reflexivity).
  vm_compute in X. discriminate X.
Qed.
(** ... and with two iSCSI ports among eleven the whole call fails. *)
Theorem C100_default_fails_refuted : status_read 520 9 mixed = Err EInstruct.
Proof. vm_compute. reflexivity. Qed.
Example C100_linux_example :
  match sync_wait 200 (coroutine (os_of (linux_system nat 3000) (status_device 9 mixed)) (Do (PrIn 3 520) finish)) status_linux with
  | Some (s, out) => out = Threw EInstruct /\ fst (l_dev (world s)) = 1%nat
  | None => False
  end /\
  match sync_wait 200 (coroutine (os_of (linux_system nat 3000) (status_device 9 mixed)) fetch_status) status_linux with
  | Some (s, out) => out = shown (Ok (whole_status 9 mixed)) /\ fst (l_dev (world s)) = 2%nat
  | None => False
  end.
Proof. vm_compute. auto. Qed.
(** More registrations than 16 bits of allocation length can say exist. *)
Example C100_too_long_example : forall n, (1366 <= n)%nat -> (n < 2 ^ 20)%nat -> status_ok 7 (repeat (fibre 1 1) n) /\
  2 ^ 16 <= 8 + zlen (all_bytes (repeat (fibre 1 1) n)).
Proof.
  intros n N M.
  assert (L : length (all_bytes (repeat (fibre 1 1) n)) = (48 * n)%nat).
  { clear. induction n as [|n IH]; [reflexivity|]. cbn [repeat]. unfold all_bytes in *. cbn [flat_map].
    rewrite app_length, IH. change (length (nexus_bytes (fibre 1 1))) with 48%nat. lia. }
  assert (B : (2 ^ 20 = 1048576)%Z) by reflexivity. apply inj_lt in M. rewrite Nat2Z.inj_pow in M. change (Z.of_nat 2 ^ Z.of_nat 20) with 1048576 in M.
  split.
  - split; [lia|]. split; [|unfold zlen; rewrite L; lia].
    apply Forall_forall. intros x I. apply repeat_spec in I. subst x. apply fibre_ok; lia.
  - unfold zlen. rewrite L. lia.
Qed.

(** All theorems at once: what is printed holds for each of them. *)
Definition all_theorems := (@C100_parsed, @C100_whole, @C100_boundary, @C100_cut, @C100_call, @C100_fetch, @C100_fetch_too_long,
  @C100_default_refuted, @C100_default_fails_refuted).
Print Assumptions all_theorems.
