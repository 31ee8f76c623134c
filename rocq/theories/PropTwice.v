(** C110: coroutine objects that are given to async_wait more than once. *)
From Coq Require Import String ZArith List Bool Lia.
From Verif Require Import Base Gen SpecGen Executer OsCommon OsWin32 SpecSg SpecDrivers SpecSession Instruct Command SpecDevice SpecCdb SpecExecute
  Sense SpecPortable SpecAdaptive SpecTwice TwiceFacts.
Import ListNotations.
Local Open Scope string_scope.
Local Open Scope list_scope.
Local Open Scope Z_scope.

(** Coroutine objects that are all different: as in C17, C64, C75 and C89. *)
Theorem C110_different : forall S D n m choose (gs : list (gen S D)) s,
  async_wait_objects n m choose (seq 0 (length gs)) (fun k => nth k gs gen_end) s = async_wait n m choose gs s.
Proof. exact different_objects. Qed.

(** One that ends without waiting for anything: KeyError if it is there twice, after everything that it does was done. *)
Theorem C110_at_once : forall S D n m choose (g : gen S D) s s1 v k rest (body : nat -> gen S D),
  async_wait n 0 choose [g] s = (s1, Some (Ok [v])) -> body k = g ->
  async_wait_objects n m choose (k :: k :: rest) body s = (s1, Some (Err EKey)) /\
  async_wait_objects n m choose [k] body s = (s1, Some (Ok [v])).
Proof. exact twice_at_once. Qed.

(** A command on Windows, twice: what the class of the command makes of a buffer that the device has not written to.
    Three times: KeyError. *)
Theorem C110_twice : forall T (tgt : target T) s t c k, win_idle s t -> issued c = Ok k -> win_fits k ->
  exists s', win_idle s' t /\ forall n m choose j body, (30 <= n)%nat ->
    body j = coroutine (win_async_os parse_sense (honest_win tgt)) (Do c finish) ->
    async_wait_objects n m choose [j; j] body s =
      (s', Some (match unanswered c k with Ok v => Ok [RVal (yielded_value v); RVal (yielded_value v)] | Err e => Err e end)) /\
    forall rest, async_wait_objects n m choose (j :: j :: j :: rest) body s =
      (s', Some (match unanswered c k with Ok _ => Err EKey | Err e => Err e end)).
Proof. exact (@twice). Qed.

(** So a device is ready, whatever it answers, and blocks are zeros. *)
Theorem C110_ready_refuted : forall T (tgt : target T) s t, win_idle s t ->
  exists s', win_idle s' t /\ forall n m choose j body, (30 <= n)%nat ->
    body j = coroutine (win_async_os parse_sense (honest_win tgt)) (Do TestUnitReady finish) ->
    async_wait_objects n m choose [j; j] body s = (s', Some (Ok [RVal (VData (DBool true)); RVal (VData (DBool true))])).
Proof.
  intros T tgt s t Hi. destruct (C110_twice T tgt s t TestUnitReady (ReadCmd [0; 0; 0; 0; 0; 0] 0) Hi) as (s' & I & H).
  - reflexivity.
  - split; cbn; lia.
  - exists s'. split; [exact I|]. intros n m choose j body N B. destruct (H n m choose j body N B) as [X _]. exact X.
Qed.
Theorem C110_read_refuted : forall T (tgt : target T) s t lba count, win_idle s t -> 0 <= lba < 2 ^ 32 -> 0 < count < 2 ^ 16 ->
  exists s', win_idle s' t /\ forall n m choose j body, (30 <= n)%nat ->
    body j = coroutine (win_async_os parse_sense (honest_win tgt)) (Do (Read10 lba count 512 []) finish) ->
    let zeroes := RVal (VData (DBytes (zeros (Z.to_nat (count * 512))))) in
    async_wait_objects n m choose [j; j] body s = (s', Some (Ok [zeroes; zeroes])).
Proof. exact (@read_twice). Qed.

(** ** Examples *)

(** A device that is never ready and answers to READ(10) with ones. *)
Definition example_sense : bytes := [112; 0; 2; 0; 0; 0; 0; 10; 0; 0; 0; 0; 4; 0; 0; 0; 0; 0].
Definition example_target : target nat := fun t cdb _ =>
  (Datatypes.S t, match interpret cdb with Some (OpRead _ n _) => good (repeat 1 (Z.to_nat (512 * n))) | _ => Answer 2 0 8 [] example_sense end).
Definition example_executer : executer spt (win_world nat) := executer_init 1 (WinWorld [] [] 0%nat []).
Definition example_coroutine (c : command) : gen (executer spt (win_world nat)) (dval (wire unit pyval)) :=
  coroutine (win_async_os parse_sense (honest_win example_target)) (Do c finish).
Definition example_wait (objs : list nat) (c : command) :=
  match async_wait_objects 100 100 (fun _ l => hd 0%nat l) objs (fun _ => example_coroutine c) example_executer with
  | (s, Some (Ok l)) => (w_dev (world s), Ok (map (fun r => match r with RVal (VData (DBytes b)) => firstn 2 b | RVal (VData (DBool b)) => [if b then 7 else 8] | _ => [] end) l))
  | (s, Some (Err e)) => (w_dev (world s), Err e)
  | (s, None) => (w_dev (world s), Ok [])
  end.
Example C110_idle_example : win_idle example_executer 0%nat /\ issued TestUnitReady = Ok (ReadCmd [0; 0; 0; 0; 0; 0] 0) /\ win_fits (ReadCmd [0; 0; 0; 0; 0; 0] 0).
Proof. repeat split; cbn; lia. Qed.
(** Once, twice, three times. *)
Example C110_run_example :
  example_wait [5%nat] TestUnitReady = (1%nat, Err (EAsiCheckCondition (pad 255 example_sense))) /\
  example_wait [5%nat; 5%nat] TestUnitReady = (0%nat, Ok [[7]; [7]]) /\
  example_wait [5%nat; 5%nat; 5%nat] TestUnitReady = (0%nat, Err EKey) /\
  example_wait [5%nat] (Read10 0 1 512 []) = (1%nat, Ok [[1; 1]]) /\
  example_wait [5%nat; 5%nat] (Read10 0 1 512 []) = (0%nat, Ok [[0; 0]; [0; 0]]).
Proof. vm_compute. repeat split. Qed.
(** A coroutine that yields a value at once. *)
Example C110_at_once_example : async_wait (S := nat) (D := nat) 10 0 (fun _ _ => 0%nat) [Gen (fun _ s => (Datatypes.S s, Yield (YVal (VData 3%nat)) gen_end))] 0%nat =
  (1%nat, Some (Ok [RVal (VData 3%nat)])).
Proof. reflexivity. Qed.

Print Assumptions C110_different.
Print Assumptions C110_at_once.
Print Assumptions C110_twice.
Print Assumptions C110_ready_refuted.
Print Assumptions C110_read_refuted.
