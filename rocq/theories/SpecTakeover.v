(** Hosts that take over a disk from a host that holds a persistent reservation, with PREEMPT or
    PREEMPT AND ABORT (sent by cdb/persist/output.py:72-113).  Models no code: the hosts' programs and
    what should become of them; the disk is the one of SpecReserve.v. *)
From Coq Require Import String ZArith List Bool PeanoNat.
From Verif Require Import Base Gen Executer OsCommon SpecSg SpecDrivers Instruct Command SpecDevice SpecCdb SpecExecute
  SpecReserve SpecAdaptive SpecShared.
Import ListNotations.
Local Open Scope Z_scope.

(** * Programs that read and write blocks *)

Definition reads (bs capacity : Z) (c : command) (lba n : Z) : Prop :=
  read_of c lba n bs /\ proper c /\ arguments_fit c /\ 0 < n /\ lba + n <= capacity /\ n * bs < 2 ^ 32.
Definition writes (bs capacity : Z) (c : command) (lba : Z) (data : bytes) : Prop :=
  write_of c lba data bs /\ proper c /\ arguments_fit c /\ lba + zlen data / bs <= capacity /\ zlen data < 2 ^ 32.
Fixpoint only_io (bs capacity : Z) (p : prog) : Prop :=
  match p with
  | Return _ | Fail _ => True
  | Do c next => ((exists lba n, reads bs capacity c lba n) \/ exists lba data, writes bs capacity c lba data) /\
      forall r, only_io bs capacity (next r)
  | Call q next => only_io bs capacity q /\ forall r, only_io bs capacity (next r)
  end.

(** Some steps of a program on a disk of its own with the blocks [d]. *)
Inductive alone (bs capacity : Z) : (Z -> bytes) -> prog -> (Z -> bytes) -> prog -> Prop :=
| al_nil : forall d p, alone bs capacity d p d p
| al_step : forall d p d1 p1 d' p', alone_step bs capacity d p d1 p1 -> alone bs capacity d1 p1 d' p' -> alone bs capacity d p d' p'
with alone_step (bs capacity : Z) : (Z -> bytes) -> prog -> (Z -> bytes) -> prog -> Prop :=
| as_read : forall d c next lba n, reads bs capacity c lba n ->
    alone_step bs capacity d (Do c next) d (next (Ok (PBytes (blocks d lba (Z.to_nat n)))))
| as_write : forall d c next lba data, writes bs capacity c lba data ->
    alone_step bs capacity d (Do c next) (written bs lba (zlen data / bs) data d) (next (Ok PNone))
| as_inside : forall d q next d1 q1, alone_step bs capacity d q d1 q1 -> alone_step bs capacity d (Call q next) d1 (Call q1 next)
| as_back : forall d v next, alone_step bs capacity d (Call (Return v) next) d (next (Ok v))
| as_thrown : forall d e next, alone_step bs capacity d (Call (Fail e) next) d (next (Err e)).

(** Some steps of a program that is shut out: its WRITEs raise AsiSCSIError, with a type of
    Exclusive Access its READs do as well. *)
Inductive shut (bs capacity ty : Z) : prog -> prog -> Prop :=
| sh_nil : forall p, shut bs capacity ty p p
| sh_step : forall p p1 p', shut_step bs capacity ty p p1 -> shut bs capacity ty p1 p' -> shut bs capacity ty p p'
with shut_step (bs capacity ty : Z) : prog -> prog -> Prop :=
| ss_read : forall c next lba n r, reads bs capacity c lba n -> (exclusive_access ty = true -> r = Err EAsiSCSI) -> shut_step bs capacity ty (Do c next) (next r)
| ss_write : forall c next lba data, writes bs capacity c lba data -> shut_step bs capacity ty (Do c next) (next (Err EAsiSCSI))
| ss_inside : forall q next q1, shut_step bs capacity ty q q1 -> shut_step bs capacity ty (Call q next) (Call q1 next)
| ss_back : forall v next, shut_step bs capacity ty (Call (Return v) next) (next (Ok v))
| ss_thrown : forall e next, shut_step bs capacity ty (Call (Fail e) next) (next (Err e)).

(** * The hosts *)

(** Take the reservation from the host with the key [victim], and if that succeeds go on with [body]:

        yield PersistentReserveOutCommand(service_action=sa, reservation_key=key,
                                          service_action_reservation_key=victim, pr_type=ty).execute(executer)
        yield body() *)
Definition preempt (sa key victim ty : Z) : command := PrOutBasic sa key victim ty [].
Definition taking_over (sa key victim ty : Z) (body : prog) : prog :=
  Do (preempt sa key victim ty) (fun r => match r with Ok _ => body | Err e => Fail e end).

(** Host [v] goes on with [zombie], the other hosts below [count] try to take over. *)
Definition cast (count v : nat) (zombie : prog) (p : nat -> prog) : nat -> prog :=
  fun h => if Nat.eqb h v then zombie else crowd count p h.

(** Host [v] holds a reservation, it and the hosts below [count] are registered; no other host has the key of [v]. *)
Record manned (st : pr_state) (count v : nat) (key : nat -> Z) (victim : Z) : Prop := Manned {
  mn_ok : pr_ok st;
  mn_held : exists ty0, held st = Some (v, ty0) /\ all_registrants ty0 = false;
  mn_victim : key_of v st = Some victim /\ 0 < victim < 2 ^ 64;
  mn_keys : forall h, (h < count)%nat -> h <> v -> key_of h st = Some (key h) /\ 0 <= key h < 2 ^ 64 /\ key h <> victim;
  mn_others : forall h k, In (h, k) (registered st) -> h <> v -> k <> victim
}.

(** The types of reservations with one holder: Write Exclusive, Exclusive Access, and both for registrants. *)
Definition one_holder (ty : Z) : Prop := In ty [1; 3; 5; 6].
