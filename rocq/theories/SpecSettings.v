(** Vocabulary for the properties about attributes that the user assigns on a command
    object between its construction and execute(): where the standards (SBC-3, SPC-4,
    SPC-2 for RESERVE and RELEASE, SAM-5 for the control byte) put each of them in the CDB,
    and what changing them means. *)
From Coq Require Import String ZArith List Bool.
From Verif Require Import Base OsCommon Instruct Command SpecDevice SpecCdb.
Import ListNotations.
Local Open Scope string_scope.
Local Open Scope list_scope.
Local Open Scope Z_scope.

(** What execute() hands to the transport if the assignments [kw] are made on the
    constructed object.  The head of the list is the latest assignment. *)
Definition issued_with (kw : attributes) (c : command) : result scsi_command :=
  do o <- constructed c; request (assigned kw o).

(** A place in a CDB: the [p_width] bits from bit [p_low] of byte [p_byte] upwards, going on in the
    bytes before (numbers in CDBs are big-endian). *)
Record place : Type := Place { p_byte : nat; p_low : nat; p_width : nat }.

(** The number [n] with the [w] bits from bit [off] upwards replaced by [v]. *)
Definition replaced (off w : nat) (v n : Z) : Z :=
  n + (v - (n / 2 ^ Z.of_nat off) mod 2 ^ Z.of_nat w) * 2 ^ Z.of_nat off.
(** The CDB with [v] written at the place, and nothing else changed. *)
Definition put (p : place) (v : Z) (cdb : bytes) : bytes :=
  be_bytes (length cdb)
    (replaced (8 * (length cdb - 1 - p_byte p) + p_low p) (p_width p) v (be_val cdb)).

(** NACA and the vendor specific bits of the control byte [k] (SAM-5, 5.2). *)
Definition control_places (k : nat) : list (string * place) :=
  [("control.naca", Place k 2 1); ("control.vendor_specific", Place k 6 2)].
(** The flags of READ and WRITE (10, 12, 16) and the group number in byte [g]. *)
Definition rw_places (protect : string) (g : nat) : list (string * place) :=
  [(protect, Place 1 5 3); ("dpo", Place 1 4 1); ("fua", Place 1 3 1); ("fua_nv", Place 1 1 1);
   ("group_number", Place g 0 5)].
(** RESERVE(10) and RELEASE(10). *)
Definition third_party_places : list (string * place) :=
  [("obsolete_1", Place 1 0 1); ("long_id", Place 1 1 1); ("reserved_1", Place 1 2 2);
   ("third_party", Place 1 4 1); ("reserved_2", Place 1 5 3); ("obsolete_2", Place 2 0 8);
   ("third_party_device_id", Place 3 0 8); ("reserved_3", Place 6 0 24);
   ("parameter_list_length", Place 8 0 16)] ++ control_places 9.

(** Every attribute that has a say in the CDB, and its place in the CDB of the standard. *)
Definition places (c : command) : list (string * place) :=
  match c with
  | Read6 _ _ _ | Write6 _ _ _ =>
      [("logical_block_address__msb", Place 1 0 5); ("logical_block_address__lsb", Place 3 0 16);
       ("transfer_length", Place 4 0 8)] ++ control_places 5
  | Read10 _ _ _ _ =>
      rw_places "rdprotect" 6 ++ [("logical_block_address", Place 5 0 32); ("transfer_length", Place 8 0 16)]
      ++ control_places 9
  | Read12 _ _ _ _ =>
      [("RelAdr", Place 1 0 1); ("fua", Place 1 3 1); ("dpo", Place 1 4 1); ("reserved", Place 1 5 3);
       ("logical_block_address", Place 5 0 32); ("transfer_length", Place 9 0 32)] ++ control_places 11
  | Read16 _ _ _ _ =>
      rw_places "reserved" 14 ++ [("mmc4", Place 14 7 1); ("logical_block_address", Place 9 0 64);
      ("transfer_length", Place 13 0 32)] ++ control_places 15
  | Write10 _ _ _ _ =>
      rw_places "wrprotect" 6 ++ [("logical_block_address", Place 5 0 32); ("transfer_length", Place 8 0 16)]
      ++ control_places 9
  | Write12 _ _ _ _ =>
      rw_places "wrprotect" 10 ++ [("logical_block_address", Place 5 0 32); ("transfer_length", Place 9 0 32)]
      ++ control_places 11
  | Write16 _ _ _ _ =>
      rw_places "wrprotect" 14 ++ [("logical_block_address", Place 9 0 64); ("transfer_length", Place 13 0 32)]
      ++ control_places 15
  | WriteSame10 _ _ _ _ _ =>
      [("wrprotect", Place 1 5 3); ("pbdata", Place 1 2 1); ("lbdata", Place 1 1 1);
       ("logical_block_address", Place 5 0 32); ("group_number", Place 6 0 5);
       ("number_of_blocks", Place 8 0 16)] ++ control_places 9
  | WriteSame16 _ _ _ _ _ =>
      [("wrprotect", Place 1 5 3); ("unmap", Place 1 3 1); ("pbdata", Place 1 2 1); ("lbdata", Place 1 1 1);
       ("logical_block_address", Place 9 0 64); ("number_of_blocks", Place 13 0 32);
       ("group_number", Place 14 0 5)] ++ control_places 15
  | CompareAndWrite _ _ _ _ _ =>
      rw_places "wrprotect" 14 ++ [("logical_block_address", Place 9 0 64);
      ("number_of_logical_blocks", Place 13 0 8)] ++ control_places 15
  | Unmap _ _ =>
      [("GROUP_NUMBER", Place 6 0 5); ("parameter_list_length", Place 8 0 16)] ++ control_places 9
  | ReadCapacity10 _ _ => [("logical_block_address", Place 5 0 32); ("pmi", Place 8 0 1)] ++ control_places 9
  | ReadCapacity16 _ _ =>
      [("service_action", Place 1 0 5); ("logical_block_address", Place 9 0 64);
       ("allocation_length", Place 13 0 32); ("pmi", Place 14 0 1)] ++ control_places 15
  | TestUnitReady => control_places 5
  | ReportLuns _ _ _ =>
      [("select_report", Place 2 0 8); ("allocation_length", Place 9 0 32)] ++ control_places 11
  | Rtpg _ _ =>
      [("service_action", Place 1 0 5); ("parameter_data_format", Place 1 5 3);
       ("allocation_length", Place 9 0 32)] ++ control_places 11
  | LogSense _ _ _ _ =>
      [("sp", Place 1 0 1); ("page_code", Place 2 0 6); ("pc", Place 2 6 2); ("subpage_code", Place 3 0 8);
       ("parameter_pointer", Place 6 0 16); ("allocation_length", Place 8 0 16)]
  | ReceiveCopy _ => [("allocation_length", Place 13 0 32); ("control", Place 15 0 8)]
  | ReceiveDiagnostic _ _ _ =>
      [("pcv", Place 1 0 1); ("page_code", Place 2 0 8); ("allocation_length", Place 4 0 16)]
  | Inquiry _ _ _ _ =>
      [("evpd", Place 1 0 1); ("page_code", Place 2 0 8); ("allocation_length", Place 4 0 16)]
      ++ control_places 5
  | Reserve6 =>
      [("obsolete_1", Place 1 0 5); ("reserved_1", Place 1 5 3); ("obsolete_2", Place 2 0 8);
       ("obsolete_3", Place 4 0 16)] ++ control_places 5
  | Release6 =>
      [("obsolete_1", Place 1 0 5); ("reserved_1", Place 1 5 3); ("obsolete_2", Place 2 0 8);
       ("reserved_3", Place 3 0 8); ("reserved_4", Place 4 0 8)] ++ control_places 5
  | Reserve10 _ => ("operation_code", Place 0 0 8) :: third_party_places
  | Release10 _ => third_party_places
  | PrIn _ _ => [("service_action", Place 1 0 5); ("allocation_length", Place 8 0 16)]
  | PrOutBasic _ _ _ _ _ | PrOutMove _ _ _ _ _ =>
      [("service_action", Place 1 0 5); ("pr_type", Place 2 0 4); ("parameter_list_length", Place 8 0 32)]
  end.

(** The number of bytes to read after [name] has been set to [v], if it was [n] before: the
    transfer length of a READ counts blocks (0 stands for 256 blocks of 512 bytes in
    READ(6)), an allocation length counts bytes. *)
Definition length_after (c : command) (name : string) (v n : Z) : Z :=
  match c with
  | Read6 _ _ bs => if String.eqb name "transfer_length" then if bs * v =? 0 then 131072 else bs * v else n
  | Read10 _ _ bs _ | Read12 _ _ bs _ | Read16 _ _ bs _ =>
      if String.eqb name "transfer_length" then bs * v else n
  | _ => if String.eqb name "allocation_length" then v else n
  end.

(** The request after [name], of place [p], has been set to [v]: the CDB differs in the place
    only, the data to write is the same. *)
Definition changed (c : command) (name : string) (p : place) (v : Z) (r : scsi_command) : scsi_command :=
  match r with
  | ReadCmd cdb n => ReadCmd (put p v cdb) (length_after c name v n)
  | WriteCmd cdb data => WriteCmd (put p v cdb) data
  end.

(** The classes whose control byte the user can set as cmd.control = Control(naca=...,
    vendor_specific=...).  RECEIVE COPY OPERATING PARAMETERS takes the whole byte as a number;
    the others have set_before_pack. *)
Definition takes_control (c : command) : Prop :=
  match c with
  | LogSense _ _ _ _ | ReceiveCopy _ | ReceiveDiagnostic _ _ _ | PrIn _ _
  | PrOutBasic _ _ _ _ _ | PrOutMove _ _ _ _ _ => False
  | _ => True
  end.
Definition control_settings (naca vendor : Z) : attributes :=
  [("control.naca", naca); ("control.vendor_specific", vendor)].

(** The block commands with one address in the attribute logical_block_address, the number
    of bits that the standard gives it, and the same command for another address. *)
Definition address_bits (c : command) : option Z :=
  match c with
  | Read10 _ _ _ _ | Read12 _ _ _ _ | Write10 _ _ _ _ | Write12 _ _ _ _ | WriteSame10 _ _ _ _ _
  | ReadCapacity10 _ _ => Some 32
  | Read16 _ _ _ _ | Write16 _ _ _ _ | WriteSame16 _ _ _ _ _ | CompareAndWrite _ _ _ _ _
  | ReadCapacity16 _ _ => Some 64
  | _ => None
  end.
Definition at_address (lba : Z) (c : command) : command :=
  match c with
  | Read10 _ tl bs kw => Read10 lba tl bs kw
  | Read12 _ tl bs kw => Read12 lba tl bs kw
  | Read16 _ tl bs kw => Read16 lba tl bs kw
  | Write10 _ buffer bs kw => Write10 lba buffer bs kw
  | Write12 _ buffer bs kw => Write12 lba buffer bs kw
  | Write16 _ buffer bs kw => Write16 lba buffer bs kw
  | WriteSame10 _ buffer n bs kw => WriteSame10 lba buffer n bs kw
  | WriteSame16 _ buffer n bs kw => WriteSame16 lba buffer n bs kw
  | CompareAndWrite _ buffer n bs kw => CompareAndWrite lba buffer n bs kw
  | ReadCapacity10 _ pmi => ReadCapacity10 lba pmi
  | ReadCapacity16 _ pmi => ReadCapacity16 lba pmi
  | c => c
  end.
