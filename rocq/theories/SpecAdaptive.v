(** User programs that decide what to do next from the results and exceptions they get:
    coroutines that yield command.execute(executer) and other such coroutines, and what they
    should see on a device. *)
From Coq Require Import String ZArith List Bool.
From Verif Require Import Base Gen SpecGen Executer OsCommon SpecSg SpecDrivers Instruct Command CdbPrimary SpecDevice SpecCdb SpecExecute
  SpecSense SpecPortable SpecReserve.
Import ListNotations.
Local Open Scope string_scope.
Local Open Scope Z_scope.

(** A program: it ends with a value ([yield v], the last statement) or an exception, runs a
    command ([yield command.execute(executer)] within try ... except), or calls another
    program ([yield program()] within try ... except); what it does next is any function of
    the result or exception. *)
Inductive prog : Type :=
| Return (v : pyval)
| Fail (e : exn)
| Do (c : command) (next : result pyval -> prog)
| Call (p : prog) (next : result pyval -> prog).

(** * As generators *)
Section Coroutine.
Context {R W H : Type} (os : os_layer R W (wire H pyval) scsi_command).

(** A callback object that has not been used yet. *)
Definition fresh (s : executer R W) : nat := Datatypes.S (list_max (map fst (cb_log s))).
(** What the try ... except around the yield gets. *)
Definition python_value (v : val (dval (wire H pyval))) : pyval :=
  match v with
  | VData (DBytes b) => PBytes b
  | VData (DBool b) => PBool b
  | VData (DInt z) => PInt z
  | VData (DObj (WObj p)) => p
  | _ => PNone
  end.
Definition caught (i : input (dval (wire H pyval))) : result pyval :=
  match i with
  | Send v => Ok (python_value v)
  | Throw e => Err e
  end.

Fixpoint coroutine (p : prog) : gen (executer R W) (dval (wire H pyval)) :=
  match p with
  | Return v => Gen (fun _ s => (s, Yield (YVal (yielded_value v)) gen_end))
  | Fail e => Gen (fun _ s => (s, Raise e))
  | Do c next => Gen (fun i s =>
      match constructed c with
      | Ok o => (s, Yield (YGen (execute os (fresh s) o)) (Gen (fun i' s' => resume (coroutine (next (caught i'))) i' s')))
      | Err e => resume (coroutine (next (Err e))) i s
      end)
  | Call q next => Gen (fun _ s =>
      (s, Yield (YGen (coroutine q)) (Gen (fun i' s' => resume (coroutine (next (caught i'))) i' s'))))
  end.
End Coroutine.

(** * What they should see *)

(** The device was reached and answered with GOOD, with CHECK CONDITION and sense data, or with
    RESERVATION CONFLICT. *)
Definition ordinary (a : answer) : Prop :=
  a_host a = 0 /\ conforming_sense (a_sense a) /\
  ((a_status a = 0 /\ a_driver a = 0) \/ (a_status a = 2 /\ a_driver a = 8) \/ (a_status a = 24 /\ a_driver a = 0)).

(** The result of command [c], issued as [k], when the device answers [a]: data as parsed by the
    class of the command; a system that hands over whole buffers ([padded]) fills up what the
    device did not send with zeros. *)
Definition seen (padded : bool) (c : command) (k : scsi_command) (a : answer) : result pyval :=
  if a_status a =? 0 then yields (constructed c) (if padded then data_wanted k (a_data a) else win_data k (a_data a))
  else if a_status a =? 2 then Err (EAsiCheckCondition (pad 255 (a_sense a)))
  else Err EAsiSCSI.

(** [does tgt padded t p t' r]: started with the device in state [t], the program leaves it in
    state [t'] and ends with [r].  A command that cannot be constructed or packed does not
    reach the device. *)
Inductive does {T} (tgt : target T) (padded : bool) : T -> prog -> T -> result pyval -> Prop :=
| does_return : forall t v, does tgt padded t (Return v) t (Ok v)
| does_fail : forall t e, does tgt padded t (Fail e) t (Err e)
| does_refused : forall t c next e t' r, issued c = Err e ->
    does tgt padded t (next (Err e)) t' r -> does tgt padded t (Do c next) t' r
| does_command : forall t c next k t1 a t' r, proper c -> issued c = Ok k -> moderate k ->
    tgt t (command_of k) (data_out k) = (t1, a) -> ordinary a ->
    does tgt padded t1 (next (seen padded c k a)) t' r -> does tgt padded t (Do c next) t' r
| does_call : forall t q next t1 rq t' r, does tgt padded t q t1 rq ->
    does tgt padded t1 (next rq) t' r -> does tgt padded t (Call q next) t' r.

(** The body of a program in place of the call. *)
Fixpoint inlined (p : prog) (next : result pyval -> prog) : prog :=
  match p with
  | Return v => next (Ok v)
  | Fail e => next (Err e)
  | Do c next' => Do c (fun r => inlined (next' r) next)
  | Call q next' => Call q (fun r => inlined (next' r) next)
  end.

(** * Some programs *)

Definition finish (r : result pyval) : prog := match r with Ok v => Return v | Err e => Fail e end.

(** Retry after CHECK CONDITION, at most [n] times. *)
Fixpoint retried (n : nat) (c : command) : prog :=
  Do c (fun r =>
    match n, r with
    | Datatypes.S m, Err (EAsiCheckCondition _) => retried m c
    | _, _ => finish r
    end).
(** The device answers the command [m] times with CHECK CONDITION and then with GOOD. *)
Inductive good_after {T} (tgt : target T) (k : scsi_command) : nat -> T -> T -> answer -> Prop :=
| ga_now : forall t t' a, tgt t (command_of k) (data_out k) = (t', a) -> ordinary a -> a_status a = 0 -> good_after tgt k 0 t t' a
| ga_later : forall m t t1 a1 t' a, tgt t (command_of k) (data_out k) = (t1, a1) -> ordinary a1 -> a_status a1 = 2 ->
    good_after tgt k m t1 t' a -> good_after tgt k (Datatypes.S m) t t' a.

(** All the keys: ask with a first allocation length, and again if the response says that more is
    needed (persist/input.py:35). *)
Definition fetch_pr (sa first : Z) : prog :=
  Do (PrIn sa first) (fun r =>
    match r with
    | Err e => Fail e
    | Ok v =>
      match required_allocation_length v with
      | Err e => Fail e
      | Ok n => if n <=? first then Return v else Do (PrIn sa n) finish
      end
    end).

(** All the LUNs: read only the length of the list, and then as much as there is. *)
Definition fetch_luns (select : Z) (allow : bool) : prog :=
  Do (ReportLuns select 8 allow) (fun r =>
    match r with
    | Ok (PBytes b) => Do (ReportLuns select (Z.max 16 (8 + be_val (firstn 4 b))) allow) finish
    | _ => finish r
    end).

(** A device that answers READ KEYS and REPORT LUNS as SPC-4 says: with the data cut at the allocation length. *)
Record reports_keys {T} (tgt : target T) (generation : Z) (keys : list Z) : Prop := ReportsKeys {
  rk_range : 0 <= generation < 2 ^ 32 /\ Forall (fun x => 0 <= x < 2 ^ 64) keys /\ 8 * zlen keys < 2 ^ 32;
  rk_answer : forall t cdb data alloc, interpret cdb = Some (OpPrIn 0 alloc) ->
    exists t', tgt t cdb data = (t', good (firstn (Z.to_nat alloc) (keys_data generation keys)))
}.
Record reports_luns {T} (tgt : target T) (luns : list Z) : Prop := ReportsLuns {
  rl_range : Forall (fun x => 0 <= x < 2 ^ 64) luns /\ 8 * zlen luns < 2 ^ 32;
  rl_answer : forall t cdb data select alloc, interpret cdb = Some (OpReportLuns select alloc) ->
    exists t', tgt t cdb data = (t', good (firstn (Z.to_nat alloc) (luns_data luns)))
}.
