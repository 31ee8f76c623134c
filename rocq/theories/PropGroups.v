(** C109: lists of target port groups and the allocation length. *)
From Coq Require Import String ZArith List Bool Lia.
From Verif Require Import Base Gen SpecGen Executer OsCommon OsLinux SpecSg SpecDrivers SpecSession Instruct Command SpecDevice SpecCdb SpecExecute
  SpecPortable SpecReserve SpecAdaptive SpecGroups GroupsFacts.
Import ListNotations.
Local Open Scope string_scope.
Local Open Scope list_scope.
Local Open Scope Z_scope.

(** All of the groups, if they fit. *)
Theorem C109_all_fit : forall T tgt groups next (sys : system T), one_of_four sys -> reports_groups tgt groups next ->
  forall alloc t s, idle sys s t -> 4 + bytes_of (groups t) <= alloc < 2 ^ 32 ->
  exists s', sync_wait_ends (coroutine (os_of sys tgt) (Do (Rtpg 0 alloc) finish)) s s'
      (shown (Ok (some_groups (bytes_of (groups t)) (groups t)))) /\ idle sys s' (next t).
Proof. exact all_fit_run. Qed.
(** An allocation length at the border of two groups: the groups after it are missing, without an exception. *)
Theorem C109_missing : forall T tgt groups next (sys : system T), one_of_four sys -> reports_groups tgt groups next ->
  forall l rest t s, idle sys s t -> groups t = l ++ rest ->
  exists s', sync_wait_ends (coroutine (os_of sys tgt) (Do (Rtpg 0 (4 + bytes_of l)) finish)) s s'
      (shown (Ok (some_groups (bytes_of (l ++ rest)) l))) /\ idle sys s' (next t).
Proof. exact boundary_run. Qed.
(** Any other one that is too short: an exception. *)
Theorem C109_cut : forall T tgt groups next (sys : system T), one_of_four sys -> reports_groups tgt groups next ->
  forall alloc t s, idle sys s t -> 4 <= alloc < 4 + bytes_of (groups t) ->
  (forall l rest, groups t = l ++ rest -> alloc <> 4 + bytes_of l) ->
  exists s', sync_wait_ends (coroutine (os_of sys tgt) (Do (Rtpg 0 alloc) finish)) s s' (Threw EInstruct) /\ idle sys s' (next t).
Proof. exact cut_run. Qed.
Theorem C109_header : forall T tgt groups next (sys : system T), one_of_four sys -> reports_groups tgt groups next ->
  forall alloc t s, idle sys s t -> 1 <= alloc < 4 ->
  exists s', sync_wait_ends (coroutine (os_of sys tgt) (Do (Rtpg 0 alloc) finish)) s s' (Threw EInstruct) /\ idle sys s' (next t).
Proof. exact header_run. Qed.
(** Whatever is returned: the first groups, and the length tells whether they are all of them. *)
Theorem C109_told : forall T tgt groups next (sys : system T), one_of_four sys -> reports_groups tgt groups next ->
  forall alloc t s s' v, idle sys s t -> 4 <= alloc < 2 ^ 32 ->
  sync_wait_ends (coroutine (os_of sys tgt) (Do (Rtpg 0 alloc) finish)) s s' (shown (Ok v)) ->
  exists l rest, groups t = l ++ rest /\ v = some_groups (bytes_of (groups t)) l /\ (rest = [] <-> 4 + bytes_of (groups t) <= alloc).
Proof. exact told_run. Qed.

(** Asking for the length first: all of the groups, unless there are more of them by then. *)
Theorem C109_fetch : forall T tgt groups next (sys : system T), one_of_four sys -> reports_groups tgt groups next ->
  forall t s, idle sys s t -> bytes_of (groups (next t)) <= bytes_of (groups t) ->
  exists s', sync_wait_ends (coroutine (os_of sys tgt) fetch_groups) s s'
      (shown (Ok (some_groups (bytes_of (groups (next t))) (groups (next t))))) /\ idle sys s' (next (next t)).
Proof. exact fetched_all. Qed.
Theorem C109_fetch_grown_refuted : forall T tgt groups next (sys : system T), one_of_four sys -> reports_groups tgt groups next ->
  forall more t s, idle sys s t -> groups (next t) = groups t ++ more ->
  exists s', sync_wait_ends (coroutine (os_of sys tgt) fetch_groups) s s'
      (shown (Ok (some_groups (bytes_of (groups t) + bytes_of more) (groups t)))) /\ idle sys s' (next (next t)).
Proof. exact fetched_old. Qed.

(** The default allocation length may be such a border: the last of 1366 groups is missing. *)
Definition one_port (n : nat) : port_group := SpecDevice.PortGroup 0 0 15 (Z.of_nat n) 0 [Z.of_nat n].
Theorem C109_default_refuted : exists groups l, readable_groups groups /\ l <> groups /\
  forall T tgt next (sys : system T), one_of_four sys -> reports_groups tgt (fun _ => groups) next ->
  forall t s, idle sys s t ->
  exists s', sync_wait_ends (coroutine (os_of sys tgt) (Do (Rtpg 0 16384) finish)) s s'
      (shown (Ok (some_groups (bytes_of groups) l))) /\ idle sys s' (next t).
Proof.
  assert (OK : forall n, (n < 1366)%nat -> group_ok (one_port n) /\ g_status (one_port n) < 128 /\ zlen (g_ports (one_port n)) < 128).
  { intros n N. unfold group_ok, one_port; cbn. repeat split; try lia. repeat constructor; lia. }
  exists (map one_port (seq 0 1366)), (map one_port (seq 0 1365)).
  assert (E : map one_port (seq 0 1366) = map one_port (seq 0 1365) ++ [one_port 1365]) by (rewrite (seq_app 1365 1), map_app; reflexivity).
  split; [split|split].
  - apply Forall_map, Forall_forall. intros n N. apply in_seq in N. apply OK. lia.
  - vm_compute. reflexivity.
  - intro X. apply (f_equal (@length port_group)) in X. rewrite !map_length, !seq_length in X. discriminate X.
  - intros T tgt next sys F D t s Hi.
    pose proof (C109_missing T tgt _ next sys F D (map one_port (seq 0 1365)) [one_port 1365] t s Hi E) as X.
    replace (4 + bytes_of (map one_port (seq 0 1365))) with 16384 in X by (vm_compute; reflexivity). rewrite <- E in X. exact X.
Qed.

(** ** Examples *)

(** A device with two groups, to which a third one is added with every command. *)
Definition example_groups (t : nat) : list port_group :=
  [SpecDevice.PortGroup 0 1 15 1 0 [1; 2]; SpecDevice.PortGroup 1 0 15 2 0 []] ++ repeat (one_port 7) t.
Definition example_target (next : nat -> nat) : target nat := fun t cdb _ =>
  (next t, match interpret cdb with
           | Some (OpReportTargetPortGroups 0 alloc) => good (firstn (Z.to_nat alloc) (length_only_data (example_groups (Nat.min t 100))))
           | _ => good []
           end).
Example C109_device_example : forall next, reports_groups (example_target next) (fun t => example_groups (Nat.min t 100)) next.
Proof.
  intro next. split.
  - intro t. assert (L : (Nat.min t 100 <= 100)%nat) by lia. generalize dependent (Nat.min t 100). intros n L. split.
    + unfold example_groups. apply Forall_app. split.
      * repeat apply Forall_cons; [| |constructor]; (split; [|split; [cbn; lia|cbn; lia]]); unfold group_ok; cbn; repeat split; try lia; repeat constructor; lia.
      * apply Forall_forall. intros g I. apply repeat_spec in I. subst g. unfold group_ok; cbn; repeat split; try lia; repeat constructor; lia.
    + fold (bytes_of (example_groups n)). unfold example_groups. rewrite bytes_prefix.
      assert (X : forall n, bytes_of (repeat (one_port 7) n) = 12 * Z.of_nat n).
      { induction n0 as [|n0 IH]; [reflexivity|]. cbn [repeat]. rewrite bytes_cons, IH. change (zlen (g_ports (one_port 7))) with 1. lia. }
      rewrite X. change (bytes_of _) with 24. lia.
  - intros t cdb data alloc I. unfold example_target. rewrite I. reflexivity.
Qed.
Example C109_lengths_example : bytes_of (example_groups 0) = 24 /\ bytes_of (example_groups 1) = 36 /\
  bytes_of [SpecDevice.PortGroup 0 1 15 1 0 [1; 2]] = 16 /\
  (forall l rest, example_groups 0 = l ++ rest -> 27 <> 4 + bytes_of l).
Proof.
  do 3 (split; [reflexivity|]). intros l rest E. unfold example_groups in E. cbn [app repeat] in E.
  destruct l as [|g l]; [discriminate|]. injection E as <- E. destruct l as [|g l]; [discriminate|]. injection E as <- E.
  destruct l as [|g l]; [discriminate|]. discriminate E.
Qed.
Definition example_linux (t : nat) : executer sgio (linux_world (sg_state nat)) := executer_init 1 (LinuxWorld [] (t, []) None).
Definition example_run (next : nat -> nat) (p : prog) :=
  match sync_wait 200 (coroutine (os_of (linux_system nat 3000) (example_target next)) p) (example_linux 0) with
  | Some (s, out) => Some (out, fst (l_dev (world s)))
  | None => None
  end.
Example C109_idle_example : forall t, idle (linux_system nat 3000) (example_linux t) t.
Proof. intro t. repeat split; cbn; try lia; eauto. Qed.
Example C109_run_example :
  example_run S (Do (Rtpg 0 28) finish) = Some (shown (Ok (some_groups 24 (example_groups 0))), 1%nat) /\
  example_run S (Do (Rtpg 0 20) finish) = Some (shown (Ok (some_groups 24 [SpecDevice.PortGroup 0 1 15 1 0 [1; 2]])), 1%nat) /\
  example_run S (Do (Rtpg 0 27) finish) = Some (shown (Err EInstruct), 1%nat) /\
  example_run S (Do (Rtpg 0 3) finish) = Some (shown (Err EInstruct), 1%nat) /\
  example_run (fun n => n) fetch_groups = Some (shown (Ok (some_groups 24 (example_groups 0))), 0%nat) /\
  example_run S fetch_groups = Some (shown (Ok (some_groups 36 (example_groups 0))), 2%nat).
Proof. vm_compute. repeat split. Qed.

(** All theorems at once: what is printed holds for each of them. *)
Definition all_theorems := (@C109_all_fit, @C109_missing, @C109_cut, @C109_header, @C109_told, @C109_fetch, @C109_fetch_grown_refuted,
  @C109_default_refuted).
Print Assumptions all_theorems.
