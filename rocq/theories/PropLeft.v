(** C111: coroutine objects that are waited for again, and executers after a failed async_wait. *)
From Coq Require Import String ZArith List Bool Lia Permutation.
From Verif Require Import Base Contexts Gen SpecGen SpecAsync Executer OsCommon OsWin32 SpecSg SpecDrivers SpecSession SpecConc Instruct Command SpecDevice SpecCdb
  SpecExecute Sense SpecPortable SpecReserve SpecAdaptive Left SpecLeft ConcFacts LeftFacts.
Import ListNotations.
Local Open Scope string_scope.
Local Open Scope list_scope.
Local Open Scope Z_scope.

(** ** Waiting for an object again *)

(** When sync_wait has returned, the object is spent: waiting for it again does nothing and gives None. *)
Theorem C111_returned : forall S D n (g : gen S D) s s1 v,
  sync_wait n g s = Some (s1, Returned v) -> spent (sync_wait_left n g s).
Proof. intros S D. exact returned_spent. Qed.

(** So is the execution of a command, and a coroutine that runs commands, when sync_wait has raised. *)
Theorem C111_raised : forall R W H (os : os_layer R W (wire H pyval) scsi_command) n s x,
  (forall me o, sync_wait n (execute os me o) s = Some x -> spent (sync_wait_left n (execute os me o) s)) /\
  (forall p, sync_wait n (coroutine os p) s = Some x -> spent (sync_wait_left n (coroutine os p) s)).
Proof. intros R W H os n s x. split; intros; [eapply command_spent|eapply program_spent]; eassumption. Qed.

(** A user's generator that yields tokens itself is not spent when one of them raises: it does not get the exception (C63), and waiting
    for it again goes on after the yield of the token that failed. *)
Theorem C111_token : forall S D (g : gen S D) s k s' e, comes_to_fail g VNone s k s' e ->
  exists n, forall m, (n <= m)%nat -> sync_wait m g s = Some (s', Threw e) /\ sync_wait_left m g s = k.
Proof. intros S D. exact token_left. Qed.

(** When async_wait has returned, all are. *)
Theorem C111_async_returned : forall S D n m choose (gs : list (gen S D)) s s1 vs i,
  async_wait n m choose gs s = (s1, Some (Ok vs)) -> spent (argument_left i (async_wait_left n m choose gs s)).
Proof. intros S D. exact all_ended. Qed.

(** However async_wait ends, the execution of a command is spent, or has not begun, or only gives what its class makes of
    None, which it takes for the answer of the device. *)
Theorem C111_execution : forall R W H (os : os_layer R W (wire H pyval) scsi_command) n m choose gs s i me c o,
  constructed c = Ok o -> nth_error gs i = Some (execute os me o) ->
  let g := argument_left i (async_wait_left n m choose gs s) in
  spent g \/ g = execute os me o \/
  only_gives g (match yields (constructed c) None with Ok v => Ok (yielded_value v) | Err e => Err e end).
Proof. intros R W H os n m choose gs s i me c o K N. rewrite K. cbn [yields bind]. eapply command_left. exact N. Qed.

(** A coroutine that runs commands is spent, or has not begun, or goes on as if None were the result of what it waited for. *)
Theorem C111_coroutine : forall R W H (os : os_layer R W (wire H pyval) scsi_command) n m choose gs s i p,
  nth_error gs i = Some (coroutine os p) ->
  let g := argument_left i (async_wait_left n m choose gs s) in
  spent g \/ g = coroutine os p \/
  exists next, continues p next /\ goes_on_as g (coroutine os (next (Ok PNone))).
Proof. intros R W H os. exact (program_left os). Qed.

(** async_wait is only there on Windows; elsewhere it raises AsiException, nothing has run and the objects can be used. *)
Theorem C111_elsewhere : forall S D p n m choose (gs : list (gen S D)) s,
  (p <> PWindows -> async_wait_on p n m choose gs s = (s, Some (Err EAsiGeneric)) /\ objects_left_on p n m choose gs s = gs) /\
  async_wait_on PWindows n m choose gs s = async_wait n m choose gs s /\
  forall i g, nth_error gs i = Some g ->
    nth_error (objects_left_on PWindows n m choose gs s) i = Some (argument_left i (async_wait_left n m choose gs s)).
Proof. intros S D. exact elsewhere. Qed.

(** By C111_execution, TEST UNIT READY says that a device is ready that never is. *)
Definition busy_target : target nat := fun t _ _ => (Datatypes.S t, Answer 8 0 0 [] []).
Definition example_os := win_async_os (A := pyval) parse_sense (honest_win busy_target).
Definition example_execution (me : nat) (c : command) : gen (executer spt (win_world nat)) (dval (wire unit pyval)) :=
  match constructed c with Ok o => execute example_os me o | Err _ => gen_end end.
Definition example_start : executer spt (win_world nat) := executer_init 4 (WinWorld [] [] 0%nat []).
Definition last_first (j : nat) (l : list nat) : nat := last l 0%nat.
Definition example_objects := [example_execution 0 TestUnitReady; example_execution 1 (Read10 0 1 512 []); example_execution 2 (Read10 5 1 512 [])].
Definition example_left i := argument_left i (async_wait_left 40 40 last_first example_objects example_start).
Definition gives (g : gen (executer spt (win_world nat)) (dval (wire unit pyval))) (s : executer spt (win_world nat)) :=
  match sync_wait 40 g s with
  | Some (s', Returned (RVal v)) => Some (w_dev (world s'), Ok v)
  | Some (s', Threw e) => Some (w_dev (world s'), Err e)
  | _ => None
  end.
Theorem C111_ready_refuted :
  gives (example_execution 3 TestUnitReady) example_start = Some (1%nat, Err EAsiSCSI) /\
  (exists s', async_wait 40 40 last_first example_objects example_start = (s', Some (Err EAsiSCSI)) /\ w_dev (world s') = 1%nat) /\
  only_gives (example_left 0) (Ok (VData (DBool true))) /\
  only_gives (example_left 1) (Ok VNone) /\
  only_gives (example_left 2) (Ok VNone).
Proof.
  assert (X : forall i me c o, nth_error example_objects i = Some (execute example_os me o) -> constructed c = Ok o ->
    spent (example_left i) \/ example_left i = execute example_os me o \/
    only_gives (example_left i) (match yields (constructed c) None with Ok v => Ok (yielded_value v) | Err e => Err e end)).
  { intros i me c o N K. exact (C111_execution _ _ _ example_os 40 40 last_first example_objects example_start i me c o K N). }
  assert (G0 : gives (example_left 0) example_start = Some (0%nat, Ok (VData (DBool true)))) by (vm_compute; reflexivity).
  assert (G1 : gives (example_left 1) example_start = Some (0%nat, Ok VNone)) by (vm_compute; reflexivity).
  assert (G2 : gives (example_left 2) example_start = Some (0%nat, Ok VNone)) by (vm_compute; reflexivity).
  assert (Sp : forall g : gen (executer spt (win_world nat)) (dval (wire unit pyval)), spent g -> only_gives g (Ok VNone)) by (intros g Sg s n N; apply Sg; lia).
  assert (Re : forall i me lba, gives (example_left i) example_start = Some (0%nat, Ok VNone) ->
    gives (example_execution me (Read10 lba 1 512 [])) example_start = Some (1%nat, Err EAsiSCSI) ->
    yields (constructed (Read10 lba 1 512 [])) None = Ok PNone ->
    nth_error example_objects i = Some (example_execution me (Read10 lba 1 512 [])) -> only_gives (example_left i) (Ok VNone)).
  { intros i me lba G E F N. unfold example_execution in *. destruct (constructed (Read10 lba 1 512 [])) as [o|e] eqn:K; [|discriminate E].
    destruct (X i me _ o N K) as [Y|[Y|Y]]; [exact (Sp _ Y)| |].
    - rewrite Y in G. rewrite G in E. discriminate E.
    - rewrite K, F in Y. exact Y. }
  split; [vm_compute; reflexivity|].
  split; [eexists; vm_compute; split; reflexivity|].
  split; [|split].
  - destruct (constructed TestUnitReady) as [o|e] eqn:K; [|discriminate K].
    destruct (X 0%nat 0%nat TestUnitReady o) as [Y|[Y|Y]].
    + unfold example_objects, example_execution. rewrite K. reflexivity.
    + exact K.
    + destruct (Y example_start 40%nat) as [Z _]; [lia|]. unfold gives in G0. rewrite Z in G0. discriminate G0.
    + exfalso. assert (E : gives (example_execution 0 TestUnitReady) example_start = Some (1%nat, Err EAsiSCSI)) by (vm_compute; reflexivity).
      unfold example_execution in E. rewrite K in E. rewrite Y, E in G0. discriminate G0.
    + exact Y.
  - eapply (Re 1%nat 1%nat 0 G1); [vm_compute; reflexivity|vm_compute; reflexivity|reflexivity].
  - eapply (Re 2%nat 2%nat 5 G2); [vm_compute; reflexivity|vm_compute; reflexivity|reflexivity].
Qed.

(** ** The executer after a failed async_wait *)

(** The hypotheses of C75, and one of the commands fails: the requests that were not completed are in the queue of the
    executer.  They leave it, in whatever order, when the coroutines are dropped, that is when nothing refers to the exception
    any more; then the executer is as before. *)
Theorem C111_failed : forall T A (sense_of : bytes -> result unit) (tgt : target T) (s : executer spt (win_world T))
    (mcs : list (nat * scsi_command)) choose n m t' e,
  pending s = [] -> incoming_packets (world s) = [] ->
  0 <= packet_index s < max_queue_size s -> zlen mcs <= max_queue_size s ->
  NoDup (map fst mcs) -> (forall me, In me (map fst mcs) -> ~ In me (map fst (cb_log s))) ->
  Forall win_fits (map snd mcs) -> fair_choice choose -> intelligible tgt sense_of ->
  (20 <= n)%nat -> (length mcs <= m)%nat ->
  let order := signalled m choose (seq 0 (length mcs)) in
  let calls := map (fun p => call (win_async_os (A := A) sense_of (honest_win tgt)) (fst p) (snd p)) mcs in
  serve tgt (map snd mcs) order (w_dev (world s)) = (t', Err e) ->
  exists s', async_wait n m choose calls s = (s', Some (Err e)) /\
    (length (pending s') + answered tgt (map snd mcs) order (w_dev (world s)) = length mcs)%nat /\
    forall exit left, Permutation left (map snd (async_wait_left n m choose calls s)) ->
      let s'' := drop_all exit left s' in
      pending s'' = [] /\ incoming_packets (world s'') = [] /\ w_dev (world s'') = t' /\
      max_queue_size s'' = max_queue_size s /\ 0 <= packet_index s'' < max_queue_size s.
Proof. intros T A. exact (@aborted T A). Qed.

(** Until then they take places, and the queue may be full for new requests (NameError, see C10). *)
Definition failing_target : target Z := fun t c d =>
  (t + 1, if nth 0 c 0 =? 42 then Answer 8 0 0 [] [] else Answer 0 0 0 [7] []).
Definition three_calls : list (nat * scsi_command) := [(0%nat, WriteCmd [42] [1; 2]); (1%nat, ReadCmd [18] 8); (2%nat, ReadCmd [37] 1)].
Definition idle_executer : executer spt (win_world Z) := Executer [] 1 3 [(9%nat, RespData None)] (WinWorld [[5]] [] 40 []).
Definition to_calls (l : list (nat * scsi_command)) :=
  map (fun p => call (win_async_os (A := unit) (fun _ => Ok tt) (honest_win failing_target)) (fst p) (snd p)) l.
Definition two_more : list (nat * scsi_command) := [(3%nat, ReadCmd [18] 8); (4%nat, ReadCmd [37] 1)].
Definition first_first (j : nat) (l : list nat) : nat := hd 0%nat l.
Definition failed := fst (async_wait 20 5 first_first (to_calls three_calls) idle_executer).
Definition released := drop_all (EUser 1) (map snd (async_wait_left 20 5 first_first (to_calls three_calls) idle_executer)) failed.
Theorem C111_queue_refuted :
  snd (async_wait 20 5 first_first (to_calls three_calls) idle_executer) = Some (Err EAsiSCSI) /\
  map fst (pending failed) = [2; 0] /\
  snd (async_wait 20 5 first_first (to_calls two_more) failed) = Some (Err EName) /\
  pending released = [] /\
  snd (async_wait 20 5 first_first (to_calls two_more) released) = Some (Ok [RVal (VData (DBytes [7])); RVal (VData (DBytes [7]))]).
Proof. vm_compute. repeat split. Qed.

(** ** Examples *)
Example C111_failed_example :
  let s := idle_executer in
  pending s = [] /\ incoming_packets (world s) = [] /\ 0 <= packet_index s < max_queue_size s /\
  zlen three_calls <= max_queue_size s /\ NoDup (map fst three_calls) /\
  (forall me, In me (map fst three_calls) -> ~ In me (map fst (cb_log s))) /\
  Forall win_fits (map snd three_calls) /\ fair_choice first_first /\ intelligible failing_target (fun _ => Ok tt) /\
  signalled 5 first_first (seq 0 3) = [0; 1; 2]%nat /\
  serve failing_target (map snd three_calls) [0; 1; 2]%nat 40 = (41, Err EAsiSCSI) /\
  answered failing_target (map snd three_calls) [0; 1; 2]%nat 40 = 1%nat.
Proof.
  cbv zeta. split; [reflexivity|]. split; [reflexivity|]. split; [cbn; lia|]. split; [vm_compute; discriminate|].
  split; [repeat constructor; cbn; intuition discriminate|].
  split; [cbn; intros me [<-|[<-|[<-|[]]]] [H|[]]; discriminate|].
  split; [repeat constructor; vm_compute; discriminate|].
  split. { intros j l H. destruct l; [congruence|left; reflexivity]. }
  split; [intros t c d; cbn; destruct (nth 0 c 0 =? 42); cbn; split; reflexivity || discriminate|].
  repeat split.
Qed.

(** sync_wait returns a block the first time and None the second; it raises the first time and returns None the second. *)
Definition ones : target nat := fun t cdb _ =>
  (Datatypes.S t, match interpret cdb with Some (OpRead _ n _) => good (repeat 1 (Z.to_nat (4 * n))) | _ => Answer 8 0 0 [] [] end).
Definition once_more (c : command) :=
  match constructed c with
  | Ok o =>
    let g := execute (win_async_os (A := pyval) parse_sense (honest_win ones)) 0 o in
    Some (gives g example_start, gives (sync_wait_left 40 g example_start) example_start)
  | Err _ => None
  end.
Example C111_again_example :
  once_more (Read10 0 1 4 []) = Some (Some (1%nat, Ok (VData (DBytes [1; 1; 1; 1]))), Some (0%nat, Ok VNone)) /\
  once_more TestUnitReady = Some (Some (1%nat, Err EAsiSCSI), Some (0%nat, Ok VNone)).
Proof. vm_compute. split; reflexivity. Qed.

(** A coroutine that tests whether the device is ready and then reads: retried, it reads without having tested. *)
Definition not_ready : target (list Z) := fun t cdb _ =>
  (t ++ [hd 0 cdb], if hd 0 cdb =? 0 then Answer 8 0 0 [] [] else if nth 5 cdb 0 =? 7 then Answer 8 0 0 [] [] else good [1; 2; 3; 4]).
Definition not_ready_os := win_async_os (A := pyval) parse_sense (honest_win not_ready).
Definition not_ready_start : executer spt (win_world (list Z)) := executer_init 4 (WinWorld [] [] [] []).
Definition test_and_read : prog :=
  Do TestUnitReady (fun r => match r with Ok _ => Do (Read10 0 1 4 []) finish | Err e => Fail e end).
Definition two_coroutines := [coroutine not_ready_os test_and_read; coroutine not_ready_os (Do (Read10 7 1 4 []) finish)].
Definition sends_and_gives (g : gen (executer spt (win_world (list Z))) (dval (wire unit pyval))) :=
  match sync_wait 80 g not_ready_start with
  | Some (s', Returned (RVal v)) => Some (w_dev (world s'), Ok v)
  | Some (s', Threw e) => Some (w_dev (world s'), Err e)
  | _ => None
  end.
Example C111_coroutine_example :
  continues test_and_read (fun r => match r with Ok _ => Do (Read10 0 1 4 []) finish | Err e => Fail e end) /\
  snd (async_wait 40 40 last_first two_coroutines not_ready_start) = Some (Err EAsiSCSI) /\
  sends_and_gives (coroutine not_ready_os test_and_read) = Some ([0], Err EAsiSCSI) /\
  sends_and_gives (argument_left 0 (async_wait_left 40 40 last_first two_coroutines not_ready_start)) =
    Some ([40], Ok (VData (DBytes [1; 2; 3; 4]))).
Proof. split; [constructor|]. vm_compute. repeat split. Qed.
Example C111_async_returned_example : async_wait (S := nat) (D := nat) 10 0 (fun _ _ => 0%nat)
  [Gen (fun _ s => (Datatypes.S s, Yield (YVal (VData 3%nat)) gen_end))] 0%nat = (1%nat, Some (Ok [RVal (VData 3%nat)])).
Proof. reflexivity. Qed.

Example C111_elsewhere_example :
  async_wait_on PLinux 40 40 last_first example_objects example_start = (example_start, Some (Err EAsiGeneric)) /\
  map (fun g => gives g example_start) (objects_left_on PLinux 40 40 last_first example_objects example_start) =
    repeat (Some (1%nat, Err EAsiSCSI)) 3 /\
  map (fun g => gives g example_start) (objects_left_on PWindows 40 40 last_first example_objects example_start) =
    [Some (0%nat, Ok (VData (DBool true))); Some (0%nat, Ok VNone); Some (0%nat, Ok VNone)].
Proof. split; [reflexivity|]. vm_compute. split; reflexivity. Qed.

(** A generator that yields 5, then a token that raises, and goes on to yield 7 and a token that counts the state. *)
Example C111_token_example :
  let after : gen nat nat := Gen (fun _ s => (s, Yield (YVal (VData 7%nat)) gen_end)) in
  let g : gen nat nat := Gen (fun _ s => (s, Yield (YVal (VData 5%nat)) (Gen (fun _ s => (s, Yield (YTok (fun s => (Datatypes.S s, Err EAsiGeneric))) after))))) in
  comes_to_fail g VNone 3%nat after 4%nat EAsiGeneric /\ sync_wait 5 g 3%nat = Some (4%nat, Threw EAsiGeneric) /\
  sync_wait 5 (sync_wait_left 5 g 3%nat) 4%nat = Some (4%nat, Returned (RVal (VData 7%nat))).
Proof.
  intros after g. split; [|split; reflexivity]. eapply cf_value; [reflexivity|]. eapply cf_now; reflexivity.
Qed.

Print Assumptions C111_returned.
Print Assumptions C111_raised.
Print Assumptions C111_token.
Print Assumptions C111_async_returned.
Print Assumptions C111_execution.
Print Assumptions C111_coroutine.
Print Assumptions C111_elsewhere.
Print Assumptions C111_ready_refuted.
Print Assumptions C111_failed.
Print Assumptions C111_queue_refuted.
