(** Hosts that take turns at a device with RESERVE and RELEASE (sent by cdb/reserve.py and
    cdb/release.py), on any of the four systems.  Models no code: the device, the hosts' programs
    and what should become of them. *)
From Coq Require Import String ZArith List Bool PeanoNat.
From Verif Require Import Base Gen Executer OsCommon SpecSg SpecDrivers Instruct Command SpecDevice SpecCdb SpecExecute
  SpecReserve SpecAdaptive SpecShared.
Import ListNotations.
Local Open Scope Z_scope.

(** * The device (SPC-2 5.5.1, 7.18 to 7.21) *)

(** RESERVE and RELEASE without a third party. *)
Definition reserve_op (op : scsi_op) : Prop := op = OpReserve6 \/ op = OpReserve10 0 0 0 0.
Definition release_op (op : scsi_op) : Prop := op = OpRelease6 \/ op = OpRelease10 0 0 0 0.
(** No RESERVE or RELEASE at all. *)
Definition other_op (op : scsi_op) : Prop :=
  match op with OpReserve6 | OpRelease6 | OpReserve10 _ _ _ _ | OpRelease10 _ _ _ _ => False | _ => True end.
(** Commands that read or change blocks. *)
Definition media_op (op : scsi_op) : Prop :=
  match op with
  | OpRead _ _ _ | OpWrite _ _ _ | OpWriteSame _ _ _ _ _ _ _ | OpCompareAndWrite _ _ _ | OpUnmap _ _ _ => True
  | _ => False
  end.

(** [h] has the reservation, or nobody has. *)
Definition open_to (h : nat) (owner : option nat) : bool :=
  match owner with None => true | Some x => Nat.eqb x h end.

(** A device that can be reserved: [tgt h] as host [h] reaches it, [owner] who has reserved it,
    and underneath the device [plain h] with its state [inner].  RESERVE is granted when no other host has
    the device, RELEASE is granted to everybody but only frees the device of its owner; other
    commands of the owner, or of anybody if there is none, are executed; those of another host that read or change blocks end
    with RESERVATION CONFLICT. *)
Record reservable {S T} (tgt : nat -> target T) (plain : nat -> target S) (owner : T -> option nat) (inner : T -> S) : Prop := Reservable {
  rv_reserve : forall h t cdb data op, interpret cdb = Some op -> reserve_op op ->
    exists t', tgt h t cdb data = (t', if open_to h (owner t) then good [] else conflict) /\ inner t' = inner t /\
      owner t' = if open_to h (owner t) then Some h else owner t;
  rv_release : forall h t cdb data op, interpret cdb = Some op -> release_op op ->
    exists t', tgt h t cdb data = (t', good []) /\ inner t' = inner t /\
      owner t' = if open_to h (owner t) then None else owner t;
  rv_use : forall h t cdb data op, interpret cdb = Some op -> other_op op -> open_to h (owner t) = true ->
    exists t', tgt h t cdb data = (t', snd (plain h (inner t) cdb data)) /\ inner t' = fst (plain h (inner t) cdb data) /\
      owner t' = owner t;
  rv_shut : forall h t cdb data op, interpret cdb = Some op -> media_op op -> open_to h (owner t) = false ->
    exists t', tgt h t cdb data = (t', conflict) /\ inner t' = inner t /\ owner t' = owner t
}.

(** * The programs *)

Definition locks (c : command) : Prop := c = Reserve6 \/ exists id, id <= 0 /\ c = Reserve10 id.
Definition unlocks (c : command) : Prop := c = Release6 \/ exists id, id <= 0 /\ c = Release10 id.
(** A program without RESERVE and RELEASE. *)
Fixpoint no_locks (p : prog) : Prop :=
  match p with
  | Return _ | Fail _ => True
  | Do c next => other_op (meaning c) /\ forall r, no_locks (next r)
  | Call q next => no_locks q /\ forall r, no_locks (next r)
  end.

(** Reserve the device, [n] times again while another host has it (AsiSCSIError), run [body], and
    release the device whatever [body] does:

        while True:
            try: yield lock.execute(executer)
            except AsiSCSIError:
                if n == 0: raise
                n -= 1
            else: break
        try: result = yield body()
        finally: yield unlock.execute(executer)
        yield result *)
Fixpoint taking_turn (lock unlock : command) (n : nat) (body : prog) : prog :=
  Do lock (fun r =>
    match r with
    | Ok _ => Call body (fun result => Do unlock (fun r => match r with Ok _ => finish result | Err e => Fail e end))
    | Err EAsiSCSI => match n with Datatypes.S m => taking_turn lock unlock m body | O => Fail EAsiSCSI end
    | Err e => Fail e
    end).

(** The bodies of some hosts run on the plain device, one after the other, with their results. *)
Inductive one_by_one {S} (plain : nat -> target S) (padded : nat -> bool) (body : nat -> prog) : S -> list (nat * result pyval) -> S -> Prop :=
| ob_nil : forall s, one_by_one plain padded body s [] s
| ob_cons : forall s h s1 r rest s', does (plain h) (padded h) s (body h) s1 r -> one_by_one plain padded body s1 rest s' ->
    one_by_one plain padded body s ((h, r) :: rest) s'.

(** The host has begun with its body and not yet ended it. *)
Definition at_work (p : prog) : Prop := match p with Call _ _ => True | _ => False end.

(** Another host than [h] has the device. *)
Definition taken {T} (owner : T -> option nat) (h : nat) (t : T) : Prop := exists x, x <> h /\ owner t = Some x.
