(** User programs run together by async_wait, each on a device of its own: C89. *)
From Coq Require Import String ZArith List Bool Lia.
From Verif Require Import Base Gen SpecGen SpecAsync AsyncFacts Executer OsCommon OsWin32 SpecSg SpecDrivers SpecSession
  Instruct Command CdbPrimary SpecDevice SpecCdb SpecExecute Sense SpecSense SpecPortable SpecAdaptive AdaptiveFacts
  SpecFleet FleetFacts Win32Wait SpecWait WaitFacts PropWait PropAdaptive.
Import ListNotations.
Local Open Scope string_scope.
Local Open Scope list_scope.
Local Open Scope Z_scope.

(** Coroutines of any kind, with states of their own and an outcome each: the values, in the order of
    the arguments, if all have values; otherwise the exception of one of those that raise. *)
Theorem C89_coroutines : forall S D (gs : list (gen S D)) ss ss' outs,
  length ss = length gs -> length ss' = length gs -> length outs = length gs ->
  (forall i g s s' o, nth_error gs i = Some g -> nth_error ss i = Some s -> nth_error ss' i = Some s' ->
     nth_error outs i = Some o ->
     call_evaluates g s s' (match o with Ok v => CallReturns v true | Err e => CallRaises e end)) ->
  exists N, forall n m choose, (N <= n)%nat -> (N <= m)%nat -> fair_choice choose ->
    (exists vs, outs = map Ok vs /\
       async_wait n m choose (commands_at gs) ss = (ss', Some (Ok (map RVal vs)))) \/
    (exists i e st, nth_error outs i = Some (Err e) /\
       async_wait n m choose (commands_at gs) ss = (st, Some (Err e)) /\
       length st = length gs /\ nth_error st i = nth_error ss' i).
Proof. exact (@coroutine_outcomes). Qed.

(** Programs that all have values: async_wait hands over the value each has alone, and leaves each device
    as it is left by the program alone, whatever the order in which the transfers complete. *)
Theorem C89_values : forall T (ms : list (member T)), Forall alone ms -> Forall returns_value ms ->
  exists ss' N, Forall2 (fun m s' => win_idle s' (after m)) ms ss' /\
  forall n r choose, (N <= n)%nat -> (N <= r)%nat -> fair_choice choose ->
    async_wait n r choose (commands_at (map running ms)) (map executer_of ms) = (ss', Some (Ok (fleet_results ms))).
Proof. exact fleet_values. Qed.

(** One that raises takes the others' results with it: async_wait raises the exception of one of those that raise,
    and hands over no result at all. *)
Theorem C89_exception : forall T (ms : list (member T)), Forall alone ms -> ~ Forall returns_value ms ->
  exists N, forall n r choose, (N <= n)%nat -> (N <= r)%nat -> fair_choice choose ->
    exists i m e st, nth_error ms i = Some m /\ result_alone m = Err e /\
      async_wait n r choose (commands_at (map running ms)) (map executer_of ms) = (st, Some (Err e)) /\
      length st = length ms /\ exists s, nth_error st i = Some s /\ win_idle s (after m).
Proof. exact fleet_exception. Qed.

(** With the programs in try ... except, everyone gets its own. *)
Theorem C89_guarded : forall T handler (ms : list (member T)), Forall alone ms ->
  exists ss' N, Forall2 (fun m s' => win_idle s' (after m)) ms ss' /\
  forall n r choose, (N <= n)%nat -> (N <= r)%nat -> fair_choice choose ->
    async_wait n r choose (commands_at (map running (map (guard handler) ms))) (map executer_of ms) =
      (ss', Some (Ok (map (fun m => RVal (yielded_value (match result_alone m with Ok v => v | Err e => handler e end))) ms))).
Proof. exact fleet_guarded. Qed.

(** The same when the wait is WaitForMultipleObjects: up to 64 programs. *)
Theorem C89_real_waits : forall T (ms : list (member T)), Forall alone ms -> Forall returns_value ms ->
  (length ms <= most_events)%nat ->
  exists ss' N, Forall2 (fun m s' => win_idle s' (after m)) ms ss' /\
  forall n r ev os, (N <= n)%nat -> (N <= r)%nat -> own_events ev -> win32_waits os -> wakes_in_time os ->
    win_async_wait n r ev os (commands_at (map running ms)) (map executer_of ms) = (ss', Some (Ok (fleet_results ms))).
Proof.
  intros T ms A V L. destruct (fleet_values T ms A V) as (ss' & N & H & E). exists ss', N. split; [exact H|].
  intros n r ev os Hn Hr He Ho Ht. rewrite wait_as_chosen; auto.
  - apply E; auto. apply named_fair.
  - rewrite commands_at_length, map_length. exact L.
Qed.

(** ** Examples *)

(** The program of C88 on a device that reports UNIT ATTENTION at first, and one that gives up at once. *)
Definition example_first : member nat :=
  Member example_target example_program 0%nat 4%nat (Ok (keys_object 5 3 (PList [PInt 10; PInt 20; PInt 30]))) example_windows.
Definition example_second : member nat :=
  Member example_target (Do TestUnitReady finish) 0%nat 1%nat (Err (EAsiCheckCondition (pad 255 example_sense))) example_windows.
Definition example_third : member nat :=
  Member example_keys (retried 2 TestUnitReady) 0%nat 2%nat (Ok (PBool true)) example_windows.

Lemma example_idle : win_idle example_windows 0%nat.
Proof. repeat split. cbn. lia. Qed.

Example C89_alone_example : Forall alone [example_first; example_second; example_third].
Proof.
  assert (S : conforming_sense example_sense).
  { split; [repeat constructor; unfold byte_ok; lia|]. cbn. intros [H|H]; discriminate H. }
  repeat constructor; try apply example_idle; cbn.
  - apply C88_program_example.
  - eapply (does_seen _ _ _ _ _ _ _ _ _ (Err (EAsiCheckCondition (pad 255 example_sense))));
      [exact Logic.I|vm_compute; reflexivity|cbn; lia|vm_compute; reflexivity| |reflexivity|constructor].
    split; [reflexivity|]. split; [exact S|]. right. left. split; reflexivity.
  - eapply (does_seen _ _ _ _ _ _ _ _ _ (Ok (PBool true)));
      [exact Logic.I|vm_compute; reflexivity|cbn; lia|vm_compute; reflexivity|apply ordinary_good|reflexivity|constructor].
Qed.
Example C89_values_example : Forall returns_value [example_first; example_third] /\
  ~ Forall returns_value [example_first; example_second; example_third].
Proof.
  split; [repeat constructor; eexists; reflexivity|]. intros H. inversion H as [|? ? _ H2]; subst. inversion H2 as [|? ? [v V] _]; subst. discriminate V.
Qed.
(** Two programs, the later one's transfer completing first, and the earlier one's. *)
Definition example_last (j : nat) (l : list nat) : nat := last l 0%nat.
Definition example_head (j : nat) (l : list nat) : nat := hd 0%nat l.
Definition shows (run : list (executer spt (win_world nat)) * option (result (list (res (list (executer spt (win_world nat))) (dval (wire unit pyval)))))) :=
  (map (fun s => w_dev (world s)) (fst run),
   match snd run with
   | Some (Ok l) => Some (Ok (map (fun r => match r with RVal v => python_value v | _ => PNone end) l))
   | Some (Err e) => Some (Err e)
   | None => None
   end).
Example C89_run_example : forall choose, choose = example_last \/ choose = example_head ->
  shows (async_wait 200 20 choose (commands_at (map running [example_first; example_third])) (map executer_of [example_first; example_third])) =
  ([4; 2]%nat, Some (Ok [keys_object 5 3 (PList [PInt 10; PInt 20; PInt 30]); PBool true])).
Proof. intros choose [->| ->]; vm_compute; reflexivity. Qed.
(** A member that raises: no result is handed over; how far the others got depends on the order. *)
Example C89_exception_example :
  let run choose := shows (async_wait 200 20 choose (commands_at (map running [example_first; example_second; example_third]))
    (map executer_of [example_first; example_second; example_third])) in
  run example_last = ([0; 1; 2]%nat, Some (Err (EAsiCheckCondition (pad 255 example_sense)))) /\
  run example_head = ([4; 1; 0]%nat, Some (Err (EAsiCheckCondition (pad 255 example_sense)))).
Proof. split; vm_compute; reflexivity. Qed.

(** All theorems at once: what is printed holds for each of them. *)
Definition all_theorems := (@C89_coroutines, @C89_values, @C89_exception, @C89_guarded, @C89_real_waits).
Print Assumptions all_theorems.
