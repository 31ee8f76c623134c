(** Coroutines that overwrite a disk with WRITE SAME and give blocks back with UNMAP, within the limits of the Block Limits page.
    Models no code of /repo; the programs are those that a user would write. *)
From Coq Require Import String ZArith List Bool.
From Verif Require Import Base Gen SpecGen Executer OsCommon SpecSg SpecDrivers Instruct Command SpecDevice SpecCdb SpecExecute SpecReserve SpecAdaptive
  SpecSense SpecDiscover SpecClone.
Import ListNotations.
Local Open Scope string_scope.
Local Open Scope list_scope.
Local Open Scope Z_scope.

(** * Devices *)

(** The Block Limits page, SBC-3 6.5.3. *)
Definition most_blocks (page : bytes) : Z := ub 20 24 page.
Definition most_descriptors (page : bytes) : Z := ub 24 28 page.
Definition longest_same (page : bytes) : Z := ub 36 44 page.
Definition refuses_zero (page : bytes) : bool := bf 4 0 1 page =? 1.

(** Block [k] is in one of the ranges (first block, number of blocks). *)
Definition within (ranges : list (Z * Z)) (k : Z) : bool := existsb (fun r => (fst r <=? k) && (k <? fst r + snd r)) ranges.
Definition total (ranges : list (Z * Z)) : Z := fold_right Z.add 0 (map snd ranges).
(** SBC-3 5.28: the device carries out an UNMAP command within its limits and its capacity, and refuses all others. *)
Definition unmaps (page : bytes) (n : Z) (ranges : list (Z * Z)) : bool :=
  (zlen ranges <=? most_descriptors page) && (total ranges <=? most_blocks page) && forallb (fun r => fst r + snd r <=? n) ranges.
(** SBC-3 5.42: so many blocks are written; 0 stands for all from [lba] on. *)
Definition same_blocks (n lba m : Z) : Z := if m =? 0 then n - lba else m.
Definition writes_same (page : bytes) (n lba m : Z) : bool :=
  ((longest_same page =? 0) || (same_blocks n lba m <=? longest_same page)) && negb ((m =? 0) && refuses_zero page).

(** A disk of [n] blocks of [bs] bytes that supports both; blocks that were given back read as zeros (LBPRZ is 1).  The device goes by the UNMAP
    BLOCK DESCRIPTOR DATA LENGTH, not by the UNMAP DATA LENGTH, which is wrong (C39). *)
Record thin_disk {T} (tgt : target T) (content : T -> Z -> bytes) (bs n : Z) (page sense : bytes) : Prop := ThinDisk {
  td_sense : conforming_sense sense;
  td_page : forall t cdb d alloc, interpret cdb = Some (OpInquiry 1 176 alloc) ->
    exists t', tgt t cdb d = (t', good (firstn (Z.to_nat alloc) page)) /\ forall k, 0 <= k < n -> content t' k = content t k;
  td_unmap : forall t cdb p g, interpret cdb = Some (OpUnmap 0 g (zlen p)) -> 8 + unmap_block_descriptor_length p <= zlen p ->
    exists t', tgt t cdb p = (t', if unmaps page n (unmap_descriptors p) then good [] else rejection sense) /\
      forall k, 0 <= k < n -> content t' k =
        if unmaps page n (unmap_descriptors p) && within (unmap_descriptors p) k then zeros (Z.to_nat bs) else content t k;
  td_same : forall t cdb data lba m g, interpret cdb = Some (OpWriteSame lba m 0 0 0 0 g) -> zlen data = bs -> 0 <= lba -> 0 <= m -> lba + m <= n ->
    exists t', tgt t cdb data = (t', if writes_same page n lba m then good [] else rejection sense) /\
      forall k, 0 <= k < n -> content t' k =
        if writes_same page n lba m && within [(lba, same_blocks n lba m)] k then data else content t k
}.
(** A page with all the fields. *)
Definition full_page (page : bytes) : Prop := bytes_ok page /\ 44 <= zlen page <= 252.

(** * Programs *)

(** One command for each piece. *)
Fixpoint for_each (cmd : Z * Z -> command) (l : list (Z * Z)) : prog :=
  match l with
  | [] => Return PNone
  | e :: l => Do (cmd e) (fun r => match r with Ok _ => for_each cmd l | Err e => Fail e end)
  end.
Definition with_limits (next : pyval -> prog) : prog :=
  Do (vpd_command 176) (fun r => match r with Ok v => next v | Err e => Fail e end).

(** Overwrite all blocks of the disk with [pattern], at most [chunk] at a time, fewer if the device says so. *)
Definition step_of (chunk longest : Z) : Z := if longest =? 0 then chunk else Z.min chunk longest.
Definition erase (pattern : bytes) (chunk : Z) : prog :=
  with_capacity (fun n bs => with_limits (fun v =>
    if bs =? zlen pattern
    then for_each (fun e => WriteSame16 (fst e) pattern (snd e) bs []) (extents 0 n (step_of chunk (attr "maximum_write_same_length" v)))
    else Fail EValue)).

(** Give back all blocks of the ranges, with as many commands as it takes; ValueError if the device does not support it. *)
Definition pieces (most : Z) (ranges : list (Z * Z)) : list (Z * Z) :=
  flat_map (fun r => extents (fst r) (snd r) (Z.min most (2 ^ 32 - 1))) ranges.
Definition trim (ranges : list (Z * Z)) : prog :=
  with_limits (fun v =>
    let most := attr "maximum_unmap_lba_count" v in
    if (most =? 0) || (attr "maximum_unmap_block_descriptor_count" v =? 0) then Fail EValue
    else for_each (fun e => Unmap [e] []) (pieces most ranges)).
(** All ranges with one command. *)
Definition trim_at_once (ranges : list (Z * Z)) : prog := Do (Unmap ranges []) finish.

(** Ranges of blocks of the disk. *)
Definition ranges_in (n : Z) (ranges : list (Z * Z)) : Prop := Forall (fun r => 0 <= fst r /\ 0 <= snd r /\ fst r + snd r <= n) ranges.

(** * Such a device *)

Definition sample_thin (bs n : Z) (page sense : bytes) : target (Z -> bytes) := fun t cdb data =>
  match interpret cdb with
  | Some (OpReadCapacity10 _ _) => (t, good (be_bytes 4 (Z.min (n - 1) (2 ^ 32 - 1)) ++ be_bytes 4 bs))
  | Some (OpReadCapacity16 _ _ alloc) => (t, good (firstn (Z.to_nat alloc) (be_bytes 8 (n - 1) ++ be_bytes 4 bs ++ zeros 20)))
  | Some (OpInquiry _ _ alloc) => (t, good (firstn (Z.to_nat alloc) page))
  | Some (OpUnmap _ _ _) =>
      if unmaps page n (unmap_descriptors data)
      then (fun k => if within (unmap_descriptors data) k then zeros (Z.to_nat bs) else t k, good [])
      else (t, rejection sense)
  | Some (OpWriteSame lba m _ _ _ _ _) =>
      if writes_same page n lba m then (fun k => if within [(lba, same_blocks n lba m)] k then data else t k, good []) else (t, rejection sense)
  | _ => (t, rejection sense)
  end.
