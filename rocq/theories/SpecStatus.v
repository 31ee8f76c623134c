(** READ FULL STATUS: what a device reports and what the caller is to get. Written from SPC-4
    (6.15.5), not from the code. *)
From Coq Require Import String ZArith List Bool.
From Verif Require Import Base OsCommon SpecSg SpecDrivers Instruct Command CdbPrimary SpecDevice SpecCdb SpecExecute SpecPortable SpecReserve SpecAdaptive.
Import ListNotations.
Local Open Scope string_scope.
Local Open Scope list_scope.
Local Open Scope Z_scope.

(** One registered initiator port: its key, whether it holds the reservation, whether the
    registration is for all target ports, type and scope of the reservation, relative target port
    identifier and TransportID. [n_gap1], [n_gap2] and [n_bits] are what the standard reserves. *)
Record nexus := Nexus {
  n_key : Z; n_gap1 : bytes; n_holder : Z; n_all_ports : Z; n_bits : Z; n_type : Z; n_scope : Z;
  n_gap2 : bytes; n_port : Z; n_transport : bytes }.
Definition nexus_ok (x : nexus) : Prop :=
  0 <= n_key x < 2 ^ 64 /\ (length (n_gap1 x) = 4%nat /\ bytes_ok (n_gap1 x)) /\
  0 <= n_holder x < 2 /\ 0 <= n_all_ports x < 2 /\ 0 <= n_bits x < 64 /\
  0 <= n_type x < 16 /\ 0 <= n_scope x < 16 /\
  (length (n_gap2 x) = 4%nat /\ bytes_ok (n_gap2 x)) /\
  0 <= n_port x < 2 ^ 16 /\ (1 <= zlen (n_transport x) < 2 ^ 32 /\ bytes_ok (n_transport x)).

(** The full status descriptor (table 217), and the parameter data (table 216). *)
Definition nexus_bytes (x : nexus) : bytes :=
  be_bytes 8 (n_key x) ++ n_gap1 x ++
  [n_holder x + 2 * n_all_ports x + 4 * n_bits x; n_type x + 16 * n_scope x] ++ n_gap2 x ++
  be_bytes 2 (n_port x) ++ be_bytes 4 (zlen (n_transport x)) ++ n_transport x.
Definition all_bytes (l : list nexus) : bytes := flat_map nexus_bytes l.
Definition status_data (generation : Z) (l : list nexus) : bytes :=
  be_bytes 4 generation ++ be_bytes 4 (zlen (all_bytes l)) ++ all_bytes l.
Definition status_ok (generation : Z) (l : list nexus) : Prop :=
  0 <= generation < 2 ^ 32 /\ Forall nexus_ok l /\ zlen (all_bytes l) < 2 ^ 32.

(** The objects that stand for them. The first byte of a TransportID (7.5.4.1) has the protocol
    identifier in its low 4 bits and the format code in its high 2 bits. *)
Definition transport_object (id : bytes) : pyval :=
  PObj "TransportId"
    [("protocol_identifier", PInt (hd 0 id mod 16)); ("reserved_1", PInt (hd 0 id / 16 mod 4));
     ("format_code", PInt (hd 0 id / 64)); ("specific_data", PBytes (tl id))].
Definition nexus_object (x : nexus) (id : bytes) : pyval :=
  PObj "PersistentReserveInReadFullStatusDescriptor"
    [("reservation_key", PInt (n_key x)); ("reservation_holder", PInt (n_holder x));
     ("all_target_ports", PInt (n_all_ports x)); ("pr_type", PInt (n_type x)); ("scope", PInt (n_scope x));
     ("relative_target_port_identifier", PInt (n_port x));
     ("additional_length", PInt (zlen (n_transport x)));
     ("transport_id", transport_object id)].
Definition status_object (generation : Z) (l : list nexus) (descriptors : pyval) : pyval :=
  PObj "PersistentReserveInReadFullStatusResponse"
    [("pr_generation", PInt generation); ("additional_length", PInt (zlen (all_bytes l)));
     ("full_status_descriptors", descriptors)].
(** All of them, each with its whole TransportID; None instead of the empty list. *)
Definition whole_status (generation : Z) (l : list nexus) : pyval :=
  status_object generation l
    (match l with [] => PNone | _ => PList (map (fun x => nexus_object x (n_transport x)) l) end).

(** What comes of the first [k] bytes of the descriptors: nothing is said about descriptors that
    are missing altogether; a descriptor whose TransportID is cut is kept with what is there of it
    (at least one byte); one of which at most the 24 bytes before the TransportID are there is an
    error of the parser. *)
Fixpoint visible (k : nat) (l : list nexus) : result (list pyval) :=
  match l, k with
  | [], _ | _, 0%nat => Ok []
  | x :: more, _ =>
    if (k <=? 24)%nat then Err EInstruct
    else match visible (k - length (nexus_bytes x)) more with
         | Ok vs => Ok (nexus_object x (firstn (k - 24) (n_transport x)) :: vs)
         | Err e => Err e
         end
  end.
(** The outcome of READ FULL STATUS when [n] bytes arrive. *)
Definition status_read (n : nat) (generation : Z) (l : list nexus) : result pyval :=
  if (n <? 8)%nat then Err EInstruct
  else match l with
       | [] => Ok (status_object generation l PNone)
       | _ => match visible (n - 8) l with
              | Ok vs => Ok (status_object generation l (PList vs))
              | Err e => Err e
              end
       end.

(** A device that answers READ FULL STATUS as SPC-4 says: with the data cut at the allocation length. *)
Record reports_status {T} (tgt : target T) (generation : Z) (l : list nexus) : Prop := ReportsStatus {
  rs_range : status_ok generation l;
  rs_answer : forall t cdb data alloc, interpret cdb = Some (OpPrIn 3 alloc) ->
    exists t', tgt t cdb data = (t', good (firstn (Z.to_nat alloc) (status_data generation l)))
}.

(** A user program that gets them all: 8 bytes first, for the length of the list, and then as much as there is. *)
Definition announced_length (v : pyval) : result Z :=
  match v with
  | PObj _ l => Ok (int_attr "additional_length" l)
  | _ => Err EAttribute
  end.
Definition fetch_status : prog :=
  Do (PrIn 3 8) (fun r =>
    match r with
    | Err e => Fail e
    | Ok v =>
      match announced_length v with
      | Err e => Fail e
      | Ok n => if n =? 0 then Return v else Do (PrIn 3 (8 + n)) finish
      end
    end).
