(** A lock that hosts keep in a block of a disk with COMPARE AND WRITE (sent by cdb/compare_and_write.py:15-52 as in
    tests/compare_and_write_example.py:21).  Models no code: the hosts' programs and what should
    become of them; the disk is the one of SpecShared.v. *)
From Coq Require Import String ZArith List Bool PeanoNat.
From Verif Require Import Base Gen Executer OsCommon SpecSg SpecDrivers Instruct Command SpecDevice SpecCdb SpecExecute
  SpecReserve SpecAdaptive SpecShared SpecTakeover.
Import ListNotations.
Local Open Scope Z_scope.

(** * The programs *)

(** The block at [lba] holds [free] while nobody has the lock, and [mark] while this host has it.
    Take the lock, [n] times again while another host has it (MISCOMPARE), run [body], and give
    the lock back whatever [body] does:

        while True:
            try: yield CompareAndWriteCommand(lba, free + mark, 1, block_size=bs).execute(executer)
            except AsiCheckConditionError as error:
                if n == 0 or not miscompared(error): raise
                n -= 1
            else: break
        try: result = yield body()
        finally: yield CompareAndWriteCommand(lba, mark + free, 1, block_size=bs).execute(executer)
        yield result *)
Definition unlocking (lba bs : Z) (free mark : bytes) (result : result pyval) : prog :=
  Do (CompareAndWrite lba (mark ++ free) 1 bs []) (fun r => match r with Ok _ => finish result | Err e => Fail e end).
Fixpoint locking (lba bs : Z) (free mark : bytes) (n : nat) (body : prog) : prog :=
  Do (CompareAndWrite lba (free ++ mark) 1 bs []) (fun r =>
    match r with
    | Ok _ => Call body (unlocking lba bs free mark)
    | Err (EAsiCheckCondition sense) =>
      match n with
      | Datatypes.S m => if miscompared sense then locking lba bs free mark m body else Fail (EAsiCheckCondition sense)
      | O => Fail (EAsiCheckCondition sense)
      end
    | Err e => Fail e
    end).

(** The same with the whole of it in try, and with WRITE (16) to give the lock back:

        try:
            yield CompareAndWriteCommand(lba, free + mark, 1, block_size=bs).execute(executer)
            result = yield body()
        finally: yield Write16Command(lba, free, block_size=bs).execute(executer)
        yield result *)
Definition careless (lba bs : Z) (free mark : bytes) (body : prog) : prog :=
  Call (Do (CompareAndWrite lba (free ++ mark) 1 bs []) (fun r => match r with Ok _ => body | Err e => Fail e end))
    (fun result => Do (Write16 lba free bs []) (fun r => match r with Ok _ => finish result | Err e => Fail e end)).

(** A program that reads and writes other blocks of the disk than the one at [lba], as long as
    reads give it as many bytes as it asked for. *)
Fixpoint elsewhere (bs capacity lba : Z) (p : prog) : Prop :=
  match p with
  | Return _ | Fail _ => True
  | Do c next =>
      (exists first n, reads bs capacity c first n /\ ~ first <= lba < first + n /\
         forall data, zlen data = n * bs -> elsewhere bs capacity lba (next (Ok (PBytes data)))) \/
      (exists first data, writes bs capacity c first data /\ ~ first <= lba < first + zlen data / bs /\
         elsewhere bs capacity lba (next (Ok PNone)))
  | Call q next => elsewhere bs capacity lba q /\ forall r, elsewhere bs capacity lba (next r)
  end.

(** * What should become of them *)

(** The marks of the hosts below [count] fit in the block and tell who has the lock. *)
Record marks (bs : Z) (free : bytes) (mark : nat -> bytes) (count : nat) : Prop := Marks {
  mk_free : zlen free = bs;
  mk_size : forall h, zlen (mark h) = bs;
  mk_taken : forall h, (h < count)%nat -> mark h <> free;
  mk_own : forall h x, (h < count)%nat -> (x < count)%nat -> mark h = mark x -> h = x
}.

(** The bodies of some hosts, each run to its end on a disk of its own ([alone], SpecTakeover.v), one after the other, with their results. *)
Inductive in_order (bs capacity : Z) (body : nat -> prog) : (Z -> bytes) -> list (nat * result pyval) -> (Z -> bytes) -> Prop :=
| io_nil : forall d, in_order bs capacity body d [] d
| io_cons : forall d h d1 p r rest d', alone bs capacity d (body h) d1 p -> ended p = Some r ->
    in_order bs capacity body d1 rest d' -> in_order bs capacity body d ((h, r) :: rest) d'.

(** Another host than [h] has the lock. *)
Definition locked_by_other (lock : bytes) (mark : nat -> bytes) (count h : nat) : Prop :=
  exists x, (x < count)%nat /\ x <> h /\ lock = mark x.
