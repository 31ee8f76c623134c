(** C88: programs that decide from results what to do next. *)
From Coq Require Import String ZArith List Bool Lia.
From Verif Require Import Base Gen SpecGen Executer OsCommon OsLinux OsSolaris OsAix OsWin32 SpecSg SpecDrivers SpecSession Instruct Command
  CdbPrimary SpecDevice SpecCdb SpecExecute Sense SpecSense SpecPortable SpecReserve SpecAdaptive AdaptiveFacts.
Import ListNotations.
Local Open Scope string_scope.
Local Open Scope list_scope.
Local Open Scope Z_scope.

(** A user coroutine run with sync_wait on any of the four systems does what the program does on the device, and nothing else. *)
Theorem C88_programs : forall T (sys : system T) tgt t p t' r s, one_of_four sys -> idle sys s t ->
  does tgt (pads sys) t p t' r ->
  (exists s', sync_wait_ends (coroutine (os_of sys tgt) p) s s' (shown r) /\ idle sys s' t') /\
  forall s' out, sync_wait_ends (coroutine (os_of sys tgt) p) s s' out -> out = shown r /\ idle sys s' t'.
Proof. intros. split; [eapply adaptive; eauto|intros; eapply adaptive_only; eauto]. Qed.

(** Calling another coroutine is the same as having its statements in place. *)
Theorem C88_calls : forall T (sys : system T) tgt t p next t' r s, one_of_four sys -> idle sys s t ->
  (does tgt (pads sys) t (Call p next) t' r <-> does tgt (pads sys) t (inlined p next) t' r) /\
  (does tgt (pads sys) t (inlined p next) t' r ->
   exists s1 s2, sync_wait_ends (coroutine (os_of sys tgt) (Call p next)) s s1 (shown r) /\ idle sys s1 t' /\
     sync_wait_ends (coroutine (os_of sys tgt) (inlined p next)) s s2 (shown r) /\ idle sys s2 t').
Proof. exact calls. Qed.

(** Retrying a command that is answered with CHECK CONDITION. *)
Theorem C88_retry : forall T (sys : system T) tgt c k n m t t' a v s, one_of_four sys -> idle sys s t ->
  proper c -> issued c = Ok k -> moderate k -> (m <= n)%nat ->
  good_after tgt k m t t' a -> seen (pads sys) c k a = Ok v ->
  exists s', sync_wait_ends (coroutine (os_of sys tgt) (retried n c)) s s' (shown (Ok v)) /\ idle sys s' t'.
Proof. exact retry_runs. Qed.

(** All the registered keys, whatever the first allocation length. *)
Theorem C88_all_keys : forall T (sys : system T) tgt g keys first t s, one_of_four sys -> idle sys s t ->
  reports_keys tgt g keys -> 8 <= first < 2 ^ 16 -> zlen keys <= 8190 ->
  exists s' t', sync_wait_ends (coroutine (os_of sys tgt) (fetch_pr 0 first)) s s'
      (shown (Ok (keys_object g (zlen keys) (PList (map PInt keys))))) /\ idle sys s' t'.
Proof. exact keys_run. Qed.
(** More keys than fit: the second command is refused and does not reach the device. *)
Theorem C88_too_many_keys : forall T (sys : system T) tgt g keys first t s, one_of_four sys -> idle sys s t ->
  reports_keys tgt g keys -> 8 <= first < 2 ^ 16 -> 8190 < zlen keys ->
  exists s' e cdb, interpret cdb = Some (OpPrIn 0 first) /\
    sync_wait_ends (coroutine (os_of sys tgt) (fetch_pr 0 first)) s s' (shown (Err e)) /\ idle sys s' (fst (tgt t cdb [])).
Proof. exact too_many_run. Qed.
(** READ FULL STATUS cannot be fetched like that, whatever the device answers. *)
Theorem C88_full_status_refuted : forall T (sys : system T) tgt first t t' r s, one_of_four sys -> idle sys s t ->
  does tgt (pads sys) t (fetch_pr 3 first) t' r ->
  exists s' e, sync_wait_ends (coroutine (os_of sys tgt) (fetch_pr 3 first)) s s' (Threw e).
Proof. exact full_status_run. Qed.

(** All the LUNs. *)
Theorem C88_all_luns : forall T (sys : system T) tgt luns select t s, one_of_four sys -> idle sys s t ->
  reports_luns tgt luns -> 0 <= select < 2 ^ 8 -> zlen luns < 2 ^ 29 - 1 ->
  exists s' t', sync_wait_ends (coroutine (os_of sys tgt) (fetch_luns select true)) s s'
      (shown (Ok (luns_object luns (map (fun x => x / 2 ^ 48) luns)))) /\ idle sys s' t'.
Proof. exact luns_run. Qed.
Theorem C88_all_simple_luns : forall T (sys : system T) tgt numbers select t s, one_of_four sys -> idle sys s t ->
  Forall (fun n => 0 <= n < 16384) numbers -> reports_luns tgt (map (fun n => n * 2 ^ 48) numbers) ->
  0 <= select < 2 ^ 8 -> zlen numbers < 2 ^ 29 - 1 ->
  exists s' t', sync_wait_ends (coroutine (os_of sys tgt) (fetch_luns select false)) s s'
      (shown (Ok (luns_object (map (fun n => n * 2 ^ 48) numbers) numbers))) /\ idle sys s' t'.
Proof. exact simple_luns_run. Qed.
(** One REPORT LUNS whose allocation length (by default 16384) is too short raises, on every system. *)
Theorem C88_one_report_luns_refuted : forall T (sys : system T) tgt luns select alloc allow t s, one_of_four sys -> idle sys s t ->
  reports_luns tgt luns -> 0 <= select < 2 ^ 8 -> 16 <= alloc < 8 + 8 * zlen luns ->
  exists s' t', sync_wait_ends (coroutine (os_of sys tgt) (Do (ReportLuns select alloc allow) finish)) s s' (Threw EInstruct) /\ idle sys s' t'.
Proof. exact short_luns_run. Qed.

(** ** Examples *)

(** A device that counts commands, has three keys and two LUNs, and reports UNIT ATTENTION at first. *)
Definition example_sense : bytes := [112; 0; 6; 0; 0; 0; 0; 10; 0; 0; 0; 0; 41; 0; 0; 0; 0; 0].
Definition example_target : target nat := fun t cdb _ =>
  (Datatypes.S t,
   match t with
   | O => Answer 2 0 8 [] example_sense
   | Datatypes.S _ =>
     match interpret cdb with
     | Some (OpPrIn 0 alloc) => good (firstn (Z.to_nat alloc) (keys_data 5 [10; 20; 30]))
     | Some (OpReportLuns _ alloc) => good (firstn (Z.to_nat alloc) (luns_data [0; 3 * 2 ^ 48]))
     | _ => good []
     end
   end).
Definition example_linux : executer sgio (linux_world (sg_state nat)) := executer_init 1 (LinuxWorld [] (0%nat, []) None).
Definition example_windows : executer spt (win_world nat) := executer_init 1 (WinWorld [] [] 0%nat []).

(** Wait until the device is ready, then fetch the keys with an allocation length of 8. *)
Definition example_program : prog :=
  Call (retried 3 TestUnitReady) (fun r => match r with Ok _ => Call (fetch_pr 0 8) finish | Err e => Fail e end).
Example C88_systems_example : one_of_four (linux_system nat 3000) /\ idle (linux_system nat 3000) example_linux 0%nat /\
  one_of_four (win_system nat) /\ idle (win_system nat) example_windows 0%nat.
Proof.
  split; [constructor|]. split; [repeat split; cbn; try lia; eauto|]. split; [constructor|]. repeat split. cbn. lia.
Qed.
(** Four commands reach the device: TEST UNIT READY twice, PERSISTENT RESERVE IN twice. *)
Example C88_program_example : forall padded,
  does example_target padded 0%nat example_program 4%nat (Ok (keys_object 5 3 (PList [PInt 10; PInt 20; PInt 30]))).
Proof.
  assert (S : conforming_sense example_sense).
  { split; [repeat constructor; unfold byte_ok; lia|]. cbn. intros [H|H]; discriminate H. }
  assert (G : forall d, ordinary (good d)) by (intro d; apply ordinary_good).
  intros padded. eapply does_call.
  - unfold retried. eapply (does_seen _ _ _ _ _ _ _ _ _ (Err (EAsiCheckCondition (pad 255 example_sense))));
      [exact Logic.I|vm_compute; reflexivity|cbn; lia|vm_compute; reflexivity| |reflexivity|].
    + split; [reflexivity|]. split; [exact S|]. right. left. split; reflexivity.
    + cbv beta iota. eapply (does_seen _ _ _ _ _ _ _ _ _ (Ok (PBool true)));
        [exact Logic.I|vm_compute; reflexivity|cbn; lia|vm_compute; reflexivity|apply G|destruct padded; reflexivity|constructor].
  - cbv beta iota. apply (does_call _ _ _ _ _ 4%nat (Ok (keys_object 5 3 (PList [PInt 10; PInt 20; PInt 30])))); [|constructor]. unfold fetch_pr.
    eapply (does_seen _ _ _ _ _ _ _ _ _ (Ok (keys_object 5 3 PNone)));
      [exact Logic.I|vm_compute; reflexivity|cbn; lia|vm_compute; reflexivity|apply G|destruct padded; vm_compute; reflexivity|].
    change (does example_target padded 3%nat (Do (PrIn 0 32) finish) 4%nat (Ok (keys_object 5 3 (PList [PInt 10; PInt 20; PInt 30])))).
    eapply (does_seen _ _ _ _ _ _ _ _ _ (Ok (keys_object 5 3 (PList [PInt 10; PInt 20; PInt 30]))));
      [exact Logic.I|vm_compute; reflexivity|cbn; lia|vm_compute; reflexivity|apply G|destruct padded; vm_compute; reflexivity|constructor].
Qed.
Example C88_linux_example : match sync_wait 200 (coroutine (os_of (linux_system nat 3000) example_target) example_program) example_linux with
  | Some (s, out) => out = shown (Ok (keys_object 5 3 (PList [PInt 10; PInt 20; PInt 30]))) /\ fst (l_dev (world s)) = 4%nat
  | None => False
  end.
Proof. vm_compute. auto. Qed.

Definition example_keys (t : nat) (cdb : bytes) (data : bytes) : nat * answer := example_target (Datatypes.S t) cdb data.
Example C88_devices_example : reports_keys example_keys 5 [10; 20; 30] /\ reports_luns example_keys [0; 3 * 2 ^ 48].
Proof.
  split; constructor; try (repeat split; repeat constructor; cbn; lia).
  - intros t cdb data alloc I. eexists. unfold example_keys, example_target. rewrite I. reflexivity.
  - intros t cdb data select alloc I. eexists. unfold example_keys, example_target. rewrite I. reflexivity.
Qed.
Example C88_retry_example : exists k a, issued TestUnitReady = Ok k /\ good_after example_target k 1 0%nat 2%nat a /\
  seen true TestUnitReady k a = Ok (PBool true) /\ seen false TestUnitReady k a = Ok (PBool true).
Proof.
  eexists. exists (good []). split; [vm_compute; reflexivity|]. split; [|split; reflexivity].
  eapply ga_later; [vm_compute; reflexivity| |reflexivity|].
  - split; [reflexivity|]. split; [|right; left; split; reflexivity].
    split; [repeat constructor; unfold byte_ok; lia|]. cbn. intros [H|H]; discriminate H.
  - apply ga_now; [vm_compute; reflexivity|apply ordinary_good|reflexivity].
Qed.
(** A full status with no descriptors parses, and then required_allocation_length raises NameError. *)
Example C88_full_status_example : forall padded,
  does (fun (t : nat) _ _ => (t, good (repeat 0 8))) padded 0%nat (fetch_pr 3 8) 0%nat (Err EName).
Proof.
  intros padded. unfold fetch_pr.
  eapply (does_seen _ _ _ _ _ _ _ _ _ (Ok (PObj "PersistentReserveInReadFullStatusResponse"
            [("pr_generation", PInt 0); ("additional_length", PInt 0); ("full_status_descriptors", PNone)])));
    [exact Logic.I|vm_compute; reflexivity|cbn; lia|reflexivity|apply ordinary_good|destruct padded; vm_compute; reflexivity|constructor].
Qed.
(** More than 2047 LUNs do not fit into the default allocation length. *)
Example C88_short_luns_example : reports_luns (fun (t : nat) cdb _ => (t, match interpret cdb with
    | Some (OpReportLuns _ alloc) => good (firstn (Z.to_nat alloc) (luns_data (repeat 0 2048))) | _ => good [] end)) (repeat 0 2048) /\
  16 <= 16384 < 8 + 8 * zlen (repeat 0 2048).
Proof.
  assert (L : zlen (repeat 0 2048) = 2048) by (unfold zlen; rewrite repeat_length; reflexivity).
  split; [constructor|rewrite L; lia].
  - split; [|rewrite L; lia]. apply Forall_forall. intros x Hx. apply repeat_spec in Hx. subst. lia.
  - intros t cdb data select alloc I. eexists. rewrite I. reflexivity.
Qed.

(** All theorems at once: what is printed holds for each of them. *)
Definition all_theorems := (@C88_programs, @C88_calls, @C88_retry, @C88_all_keys, @C88_too_many_keys, @C88_full_status_refuted,
  @C88_all_luns, @C88_all_simple_luns, @C88_one_report_luns_refuted).
Print Assumptions all_theorems.
