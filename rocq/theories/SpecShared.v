(** Several hosts that run programs against one device at the same time, and COMPARE AND WRITE
    (sent by cdb/compare_and_write.py:11-50) as what they coordinate with. *)
From Coq Require Import String ZArith List Bool PeanoNat.
From Verif Require Import Base Gen Executer OsCommon SpecSg SpecDrivers Instruct Command CdbPrimary SpecDevice SpecCdb SpecExecute
  SpecSense SpecPortable SpecReserve SpecAdaptive.
Import ListNotations.
Local Open Scope Z_scope.

(** * Programs that run at the same time *)

(** One step of a program: a command that cannot be sent, a command that reaches the device
    (then the list holds the state of the device that it met), the end of a called program. *)
Inductive moves {T} (tgt : target T) (padded : bool) : T -> prog -> list T -> T -> prog -> Prop :=
| mv_refused : forall t c next e, issued c = Err e -> moves tgt padded t (Do c next) [] t (next (Err e))
| mv_command : forall t c next k t1 a, proper c -> issued c = Ok k -> moderate k ->
    tgt t (command_of k) (data_out k) = (t1, a) -> ordinary a ->
    moves tgt padded t (Do c next) [t] t1 (next (seen padded c k a))
| mv_inside : forall t q next met t1 q1, moves tgt padded t q met t1 q1 -> moves tgt padded t (Call q next) met t1 (Call q1 next)
| mv_back : forall t v next, moves tgt padded t (Call (Return v) next) [] t (next (Ok v))
| mv_thrown : forall t e next, moves tgt padded t (Call (Fail e) next) [] t (next (Err e)).

Definition replaced (h : nat) (p : prog) (ps : nat -> prog) : nat -> prog := fun x => if Nat.eqb x h then p else ps x.

(** Any interleaving of the programs [ps h] of the hosts [h] ([tgt h] is the device as host [h]
    reaches it): which host met which state of the device, the state that is left, and the
    programs as far as they have not run. *)
Inductive together {T} (tgt : nat -> target T) (padded : nat -> bool) : T -> (nat -> prog) -> list (nat * T) -> T -> (nat -> prog) -> Prop :=
| tg_nil : forall t ps, together tgt padded t ps [] t ps
| tg_step : forall t ps h met t1 p1 trace t' ps', moves (tgt h) (padded h) t (ps h) met t1 p1 ->
    together tgt padded t1 (replaced h p1 ps) trace t' ps' ->
    together tgt padded t ps (map (pair h) met ++ trace) t' ps'.

Definition ended (p : prog) : option (result pyval) :=
  match p with Return v => Some (Ok v) | Fail e => Some (Err e) | _ => None end.

(** The states of the device that host [h] met. *)
Definition met_by {T} (h : nat) (trace : list (nat * T)) : list T := map snd (filter (fun e => Nat.eqb (fst e) h) trace).

(** The device from where one host stands: before each of its commands the others have brought the device into the next of the given states. *)
Definition disturbed {T} (tgt : target T) : target (T * list T) := fun st cdb data =>
  match st with
  | (_, t :: rest) => let (t', a) := tgt t cdb data in ((t', rest), a)
  | (t, []) => let (t', a) := tgt t cdb data in ((t', []), a)
  end.

(** * A disk with COMPARE AND WRITE *)

Definition same_bytes (a b : bytes) : bool := if list_eq_dec Z.eq_dec a b then true else false.
(** Fixed format sense data with sense key MISCOMPARE (SPC-4 4.5.3, 4.5.6). *)
Definition miscompared (sense : bytes) : bool := (bf 0 0 7 sense =? 112) && (bf 2 0 4 sense =? 14).

(** A disk that several hosts reach: READ, WRITE and COMPARE AND WRITE (SBC-3 5.2: the first half
    of the data is compared with the blocks, and if it is equal the second half is written,
    with no other command in between; otherwise MISCOMPARE). *)
Record compare_disk {T} (tgt : nat -> target T) (content : T -> Z -> bytes) (bs capacity : Z) (sense : bytes) : Prop := CompareDisk {
  cd_block : forall h, block_device (tgt h) content bs capacity;
  cd_sense : conforming_sense sense /\ miscompared sense = true;
  cd_compare : forall h t cdb data lba n f, interpret cdb = Some (OpCompareAndWrite lba n f) -> protect f = 0 ->
    0 <= lba -> 0 <= n -> lba + n <= capacity -> zlen data = 2 * n * bs ->
    let equal := same_bytes (blocks (content t) lba (Z.to_nat n)) (firstn (Z.to_nat (n * bs)) data) in
    exists t', tgt h t cdb data = (t', if equal then good [] else rejection sense) /\
      forall k, 0 <= k < capacity -> content t' k =
        if equal then written bs lba n (skipn (Z.to_nat (n * bs)) data) (content t) k else content t k
}.

(** * Changing a block without a lock *)

(** Read the block at [lba] with [rd], replace it by [f] of it if it is still the same, otherwise
    try again, [n] times at most; tests/compare_and_write_example.py:21 sends the command like
    that.  The value of a successful program is that of the last command, None. *)
Fixpoint updating (rd : command) (lba bs : Z) (f : bytes -> bytes) (n : nat) : prog :=
  Do rd (fun r =>
    match r with
    | Ok (PBytes old) =>
      Do (CompareAndWrite lba (old ++ f old) 1 bs []) (fun r =>
        match r with
        | Ok v => Return v
        | Err (EAsiCheckCondition sense) =>
          match n with
          | Datatypes.S m => if miscompared sense then updating rd lba bs f m else Fail (EAsiCheckCondition sense)
          | O => Fail (EAsiCheckCondition sense)
          end
        | Err e => Fail e
        end)
    | Ok _ => Fail EType
    | Err e => Fail e
    end).

(** The same with WRITE (16), which does not compare. *)
Definition overwriting (rd : command) (lba bs : Z) (f : bytes -> bytes) : prog :=
  Do rd (fun r =>
    match r with
    | Ok (PBytes old) => Do (Write16 lba (f old) bs []) finish
    | Ok _ => Fail EType
    | Err e => Fail e
    end).

(** Hosts 0 to [count] - 1 run [p h]; others do nothing. *)
Definition crowd (count : nat) (p : nat -> prog) : nat -> prog := fun h => if Nat.ltb h count then p h else Return PNone.

(** The block after the changes of the hosts in [order], one after the other. *)
Definition changed (f : nat -> bytes -> bytes) (order : list nat) (block : bytes) : bytes :=
  fold_left (fun b h => f h b) order block.
