(** Coroutines that copy disks: they ask for the capacity, and read or write the blocks in pieces. *)
From Coq Require Import String ZArith List Bool.
From Verif Require Import Base Gen SpecGen Executer OsCommon SpecSg SpecDrivers Instruct Command CdbPrimary SpecDevice SpecCdb SpecExecute
  SpecSense SpecPortable SpecReserve SpecAdaptive.
Import ListNotations.
Local Open Scope string_scope.
Local Open Scope list_scope.
Local Open Scope Z_scope.

(** * Devices *)

(** A device that answers READ CAPACITY as SBC-3 says: READ CAPACITY(10) with the last block, or FFFFFFFFh if that does not fit;
    READ CAPACITY(16) with 32 bytes cut at the allocation length.  [more]: protection, alignment and provisioning. *)
Record reports_capacity {T} (tgt : target T) (content : T -> Z -> bytes) (bs n : Z) (more : bytes) : Prop := ReportsCapacity {
  rc_more : zlen more = 20 /\ bytes_ok more;
  rc_ten : forall t cdb data, interpret cdb = Some (OpReadCapacity10 0 0) ->
    exists t', tgt t cdb data = (t', good (be_bytes 4 (Z.min (n - 1) (2 ^ 32 - 1)) ++ be_bytes 4 bs)) /\
      forall k, 0 <= k < n -> content t' k = content t k;
  rc_sixteen : forall t cdb data alloc, interpret cdb = Some (OpReadCapacity16 0 0 alloc) ->
    exists t', tgt t cdb data = (t', good (firstn (Z.to_nat alloc) (be_bytes 8 (n - 1) ++ be_bytes 4 bs ++ more))) /\
      forall k, 0 <= k < n -> content t' k = content t k
}.
(** A disk with unreadable blocks: a READ of one of them, alone or among others, ends with CHECK CONDITION. *)
Definition bad_in (bad : Z -> bool) (lba n : Z) : bool := existsb (fun i => bad (lba + Z.of_nat i)) (seq 0 (Z.to_nat n)).
Record flawed_disk {T} (tgt : target T) (content : T -> Z -> bytes) (bs n : Z) (bad : Z -> bool) (sense : bytes) : Prop := FlawedDisk {
  fd_block : forall t k, 0 <= k < n -> zlen (content t k) = bs;
  fd_sense : conforming_sense sense;
  fd_read : forall t cdb data lba m f, interpret cdb = Some (OpRead lba m f) -> protect f = 0 ->
    0 <= lba -> 0 <= m -> lba + m <= n ->
    exists t', tgt t cdb data = (t', if bad_in bad lba m then rejection sense else good (blocks (content t) lba (Z.to_nat m))) /\
      forall k, 0 <= k < n -> content t' k = content t k
}.
(** The content with zeros in place of the blocks that cannot be read. *)
Definition salvaged (bad : Z -> bool) (bs : Z) (content : Z -> bytes) : Z -> bytes :=
  fun k => if bad k then zeros (Z.to_nat bs) else content k.

(** * Programs *)

(** An attribute of a result. *)
Definition attr (name : string) (v : pyval) : Z :=
  match v with
  | PObj _ l => match lookup name l with Some (PInt z) => z | _ => 0 end
  | _ => 0
  end.
(** Ask for the number of blocks and the block size; [next] is the rest of the program. *)
Definition size_told (next : Z -> Z -> prog) (r : result pyval) : prog :=
  match r with
  | Ok v => next (attr "last_logical_block_address" v + 1) (attr "block_length_in_bytes" v)
  | Err e => Fail e
  end.
Definition with_capacity (next : Z -> Z -> prog) : prog :=
  Do (ReadCapacity10 0 0) (fun r =>
    match r with
    | Ok v => if attr "last_logical_block_address" v =? 2 ^ 32 - 1 then Do (ReadCapacity16 0 0) (size_told next) else size_told next r
    | Err e => Fail e
    end).
(** The same without READ CAPACITY(16). *)
Definition with_capacity10 (next : Z -> Z -> prog) : prog := Do (ReadCapacity10 0 0) (size_told next).

(** The pieces: first block and number of blocks, as in [for lba in range(lba, lba + n, chunk)]. *)
Definition extents (lba n chunk : Z) : list (Z * Z) :=
  map (fun i => (lba + chunk * Z.of_nat i, Z.min chunk (n - chunk * Z.of_nat i))) (seq 0 (Z.to_nat ((n + chunk - 1) / chunk))).
(** Run a program for every piece, and put together what they return. *)
Fixpoint each (piece : Z * Z -> prog) (l : list (Z * Z)) (acc : bytes) : prog :=
  match l with
  | [] => Return (PBytes acc)
  | e :: l => Call (piece e) (fun r =>
      match r with
      | Ok (PBytes b) => each piece l (acc ++ b)
      | Ok _ => Fail EType
      | Err e => Fail e
      end)
  end.
(** The READ command for [n] blocks of [bs] bytes from [lba] on, for instance [fun lba n bs => Read16 lba n bs []]. *)
Definition reader := Z -> Z -> Z -> command.
Definition reads_up_to (rd : reader) (bs capacity chunk : Z) : Prop :=
  forall lba n, 0 <= lba -> 1 <= n <= chunk -> lba + n <= capacity ->
    read_of (rd lba n bs) lba n bs /\ proper (rd lba n bs) /\ arguments_fit (rd lba n bs).

(** Read all blocks. *)
Definition reading (rd : reader) (bs : Z) (e : Z * Z) : prog := Do (rd (fst e) (snd e) bs) finish.
Definition dump (rd : reader) (chunk : Z) : prog := with_capacity (fun n bs => each (reading rd bs) (extents 0 n chunk) []).
Definition dump10 (rd : reader) (chunk : Z) : prog := with_capacity10 (fun n bs => each (reading rd bs) (extents 0 n chunk) []).

(** Read all blocks that can be read: if a piece cannot, block by block, with zeros in place of those that cannot. *)
Definition salvaging1 (rd : reader) (bs : Z) (e : Z * Z) : prog :=
  Do (rd (fst e) (snd e) bs) (fun r =>
    match r with
    | Err (EAsiCheckCondition _) => Return (PBytes (zeros (Z.to_nat bs)))
    | _ => finish r
    end).
Definition salvaging (rd : reader) (bs : Z) (e : Z * Z) : prog :=
  Do (rd (fst e) (snd e) bs) (fun r =>
    match r with
    | Err (EAsiCheckCondition _) => each (salvaging1 rd bs) (extents (fst e) (snd e) 1) []
    | _ => finish r
    end).
Definition salvage (rd : reader) (chunk : Z) : prog := with_capacity (fun n bs => each (salvaging rd bs) (extents 0 n chunk) []).

(** The WRITE command for [data], in blocks of [bs] bytes, from [lba] on. *)
Definition writer := Z -> bytes -> Z -> command.
Definition writes_up_to (wr : writer) (bs capacity chunk : Z) : Prop :=
  forall lba n data, 0 <= lba -> 1 <= n <= chunk -> lba + n <= capacity -> zlen data = n * bs ->
    write_of (wr lba data bs) lba data bs /\ proper (wr lba data bs) /\ arguments_fit (wr lba data bs).
(** Write [data] from the first block on; ValueError, before anything is written, if there is not enough room. *)
Fixpoint storing (wr : writer) (bs : Z) (data : bytes) (l : list (Z * Z)) : prog :=
  match l with
  | [] => Return PNone
  | (lba, n) :: l => Do (wr lba (slice (Z.to_nat (lba * bs)) (Z.to_nat ((lba + n) * bs)) data) bs) (fun r =>
      match r with
      | Ok _ => storing wr bs data l
      | Err e => Fail e
      end)
  end.
Definition restore (wr : writer) (chunk : Z) (data : bytes) : prog :=
  with_capacity (fun n bs => if n * bs <? zlen data then Fail EValue else storing wr bs data (extents 0 (zlen data / bs) chunk)).

(** * Such a device *)

(** A disk with [n] blocks of [bs] bytes, of which those in [bad] are unreadable. *)
Definition sample_disk (bs n : Z) (bad : Z -> bool) (sense : bytes) : target (Z -> bytes) := fun t cdb data =>
  match interpret cdb with
  | Some (OpRead lba m _) => (t, if bad_in bad lba m then rejection sense else good (blocks (fun k => pad (Z.to_nat bs) (t k)) lba (Z.to_nat m)))
  | Some (OpWrite lba m _) => (written bs lba m data t, good [])
  | Some (OpReadCapacity10 _ _) => (t, good (be_bytes 4 (Z.min (n - 1) (2 ^ 32 - 1)) ++ be_bytes 4 bs))
  | Some (OpReadCapacity16 _ _ alloc) => (t, good (firstn (Z.to_nat alloc) (be_bytes 8 (n - 1) ++ be_bytes 4 bs ++ zeros 20)))
  | _ => (t, rejection sense)
  end.
