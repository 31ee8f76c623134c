(** Specification of the device's side: how a device server reads a CDB and the parameter
    data of the commands that the library can send.  Written from the SCSI standards
    (SBC-3 for the block commands, SPC-4 for the primary commands, SPC-2 for RESERVE and
    RELEASE), independently of the classes that build the CDBs.  Models no code of /repo. *)
From Coq Require Import String ZArith List Bool.
From Verif Require Import Base OsCommon Instruct.
Import ListNotations.
Local Open Scope string_scope.
Local Open Scope Z_scope.

(** The number in bytes [a] to [b - 1]; the field of [w] bits at bit [lo] of byte [k]. *)
Definition ub (a b : nat) (cdb : bytes) : Z := be_val (slice a b cdb).
Definition bf (k lo w : nat) (cdb : bytes) : Z := (byte_at k cdb / 2 ^ Z.of_nat lo) mod 2 ^ Z.of_nat w.

(** The same bytes read as a two's complement number. *)
Definition sb (a b : nat) (buf : bytes) : Z :=
  let v := ub a b buf in if 2 ^ (8 * Z.of_nat (b - a) - 1) <=? v then v - 2 ^ (8 * Z.of_nat (b - a)) else v.

(** Length of a CDB by the group code of its operation code (SPC-4, 4.2.5.1). *)
Definition cdb_length (op : Z) : Z :=
  match op / 32 with 0 => 6 | 1 => 10 | 2 => 10 | 4 => 16 | 5 => 12 | _ => 0 end.

(** Bits that shall be zero: (byte, first bit, width).  The control byte is one of them: the
    device supports neither NACA nor vendor specific control bits. *)
Definition clear (l : list (nat * nat * nat)) (cdb : bytes) : bool :=
  forallb (fun r => match r with (k, lo, w) => bf k lo w cdb =? 0 end) l.
Definition whole (k : nat) : nat * nat * nat := (k, 0%nat, 8%nat).

Record rw_flags := RwFlags { protect : Z; dpo : Z; fua : Z; fua_nv : Z; group : Z }.

(** What the device is asked to do. *)
Inductive scsi_op : Type :=
| OpRead (lba blocks : Z) (f : rw_flags)
| OpWrite (lba blocks : Z) (f : rw_flags)
| OpWriteSame (lba blocks protect unmap pbdata lbdata group : Z)
| OpCompareAndWrite (lba blocks : Z) (f : rw_flags)
| OpUnmap (anchor group parameter_list_length : Z)
| OpReadCapacity10 (lba pmi : Z)
| OpReadCapacity16 (lba pmi allocation_length : Z)
| OpTestUnitReady
| OpReportLuns (select_report allocation_length : Z)
| OpReportTargetPortGroups (format allocation_length : Z)
| OpLogSense (sp page subpage pc pointer allocation_length : Z)
| OpReceiveCopyParameters (allocation_length : Z)
| OpReceiveDiagnostic (pcv page allocation_length : Z)
| OpInquiry (evpd page allocation_length : Z)
| OpReserve6
| OpRelease6
| OpReserve10 (third_party long_id id parameter_list_length : Z)
| OpRelease10 (third_party long_id id parameter_list_length : Z)
| OpPrIn (service_action allocation_length : Z)
| OpPrOut (service_action scope type parameter_list_length : Z).

(** Byte 1 of READ and WRITE (10, 12, 16) and COMPARE AND WRITE; the group number is in the
    low bits of byte [g]. *)
Definition flags_at (g : nat) (c : bytes) : rw_flags :=
  RwFlags (bf 1 5 3 c) (bf 1 4 1 c) (bf 1 3 1 c) (bf 1 1 1 c) (bf g 0 5 c).
(** READ(6) and WRITE(6) have none. *)
Definition no_flags : rw_flags := RwFlags 0 0 0 0 0.

Definition if_clear (l : list (nat * nat * nat)) (c : bytes) (o : scsi_op) : option scsi_op :=
  if clear l c then Some o else None.

(** Address and length of the 6-byte commands: length 0 stands for 256. *)
Definition lba6 (c : bytes) : Z := bf 1 0 5 c * 65536 + ub 2 4 c.
Definition length6 (c : bytes) : Z := if ub 4 5 c =? 0 then 256 else ub 4 5 c.

Definition interpret_op (c : bytes) : option scsi_op :=
  let op := byte_at 0 c in
  if op =? 8 (* READ(6) *) then
    if_clear [(1, 5, 3); whole 5]%nat c (OpRead (lba6 c) (length6 c) no_flags)
  else if op =? 10 (* WRITE(6) *) then
    if_clear [(1, 5, 3); whole 5]%nat c (OpWrite (lba6 c) (length6 c) no_flags)
  else if op =? 40 (* READ(10) *) then
    if_clear [(1, 0, 1); (1, 2, 1); (6, 5, 3); whole 9]%nat c (OpRead (ub 2 6 c) (ub 7 9 c) (flags_at 6 c))
  else if op =? 42 (* WRITE(10) *) then
    if_clear [(1, 0, 1); (1, 2, 1); (6, 5, 3); whole 9]%nat c (OpWrite (ub 2 6 c) (ub 7 9 c) (flags_at 6 c))
  else if op =? 168 (* READ(12) *) then
    if_clear [(1, 0, 1); (1, 2, 1); (10, 5, 3); whole 11]%nat c (OpRead (ub 2 6 c) (ub 6 10 c) (flags_at 10 c))
  else if op =? 170 (* WRITE(12) *) then
    if_clear [(1, 0, 1); (1, 2, 1); (10, 5, 3); whole 11]%nat c (OpWrite (ub 2 6 c) (ub 6 10 c) (flags_at 10 c))
  else if op =? 136 (* READ(16) *) then
    if_clear [(1, 0, 1); (1, 2, 1); (14, 5, 3); whole 15]%nat c (OpRead (ub 2 10 c) (ub 10 14 c) (flags_at 14 c))
  else if op =? 138 (* WRITE(16) *) then
    if_clear [(1, 0, 1); (1, 2, 1); (14, 5, 3); whole 15]%nat c (OpWrite (ub 2 10 c) (ub 10 14 c) (flags_at 14 c))
  else if op =? 65 (* WRITE SAME(10); the ANCHOR bit (4) is not supported *) then
    if_clear [(1, 0, 1); (1, 4, 1); (6, 5, 3); whole 9]%nat c
      (OpWriteSame (ub 2 6 c) (ub 7 9 c) (bf 1 5 3 c) (bf 1 3 1 c) (bf 1 2 1 c) (bf 1 1 1 c) (bf 6 0 5 c))
  else if op =? 147 (* WRITE SAME(16) *) then
    if_clear [(1, 0, 1); (1, 4, 1); (14, 5, 3); whole 15]%nat c
      (OpWriteSame (ub 2 10 c) (ub 10 14 c) (bf 1 5 3 c) (bf 1 3 1 c) (bf 1 2 1 c) (bf 1 1 1 c) (bf 14 0 5 c))
  else if op =? 137 (* COMPARE AND WRITE *) then
    if_clear [(1, 0, 1); (1, 2, 1); whole 10; whole 11; whole 12; (14, 5, 3); whole 15]%nat c
      (OpCompareAndWrite (ub 2 10 c) (ub 13 14 c) (flags_at 14 c))
  else if op =? 66 (* UNMAP *) then
    if_clear [(1, 1, 7); whole 2; whole 3; whole 4; whole 5; (6, 5, 3); whole 9]%nat c
      (OpUnmap (bf 1 0 1 c) (bf 6 0 5 c) (ub 7 9 c))
  else if op =? 37 (* READ CAPACITY(10) *) then
    if_clear [whole 1; whole 6; whole 7; (8, 1, 7); whole 9]%nat c (OpReadCapacity10 (ub 2 6 c) (bf 8 0 1 c))
  else if op =? 158 (* SERVICE ACTION IN(16) *) then
    if bf 1 0 5 c =? 16 (* READ CAPACITY(16) *) then
      if_clear [(1, 5, 3); (14, 1, 7); whole 15]%nat c (OpReadCapacity16 (ub 2 10 c) (bf 14 0 1 c) (ub 10 14 c))
    else None
  else if op =? 0 (* TEST UNIT READY *) then
    if_clear [whole 1; whole 2; whole 3; whole 4; whole 5]%nat c OpTestUnitReady
  else if op =? 160 (* REPORT LUNS *) then
    if_clear [whole 1; whole 3; whole 4; whole 5; whole 10; whole 11]%nat c (OpReportLuns (ub 2 3 c) (ub 6 10 c))
  else if op =? 163 (* MAINTENANCE IN *) then
    if bf 1 0 5 c =? 10 (* REPORT TARGET PORT GROUPS *) then
      if_clear [whole 2; whole 3; whole 4; whole 5; whole 10; whole 11]%nat c
        (OpReportTargetPortGroups (bf 1 5 3 c) (ub 6 10 c))
    else None
  else if op =? 77 (* LOG SENSE *) then
    if_clear [(1, 1, 7); whole 4; whole 9]%nat c
      (OpLogSense (bf 1 0 1 c) (bf 2 0 6 c) (ub 3 4 c) (bf 2 6 2 c) (ub 5 7 c) (ub 7 9 c))
  else if op =? 132 (* RECEIVE COPY RESULTS *) then
    if bf 1 0 5 c =? 3 (* OPERATING PARAMETERS *) then
      if_clear [(1, 5, 3); whole 2; whole 3; whole 4; whole 5; whole 6; whole 7; whole 8; whole 9; whole 14; whole 15]%nat c
        (OpReceiveCopyParameters (ub 10 14 c))
    else None
  else if op =? 28 (* RECEIVE DIAGNOSTIC RESULTS *) then
    if_clear [(1, 1, 7); whole 5]%nat c (OpReceiveDiagnostic (bf 1 0 1 c) (ub 2 3 c) (ub 3 5 c))
  else if op =? 18 (* INQUIRY *) then
    if_clear [(1, 1, 7); whole 5]%nat c (OpInquiry (bf 1 0 1 c) (ub 2 3 c) (ub 3 5 c))
  else if op =? 22 (* RESERVE(6) *) then
    if_clear [whole 1; whole 2; whole 3; whole 4; whole 5]%nat c OpReserve6
  else if op =? 23 (* RELEASE(6) *) then
    if_clear [whole 1; whole 2; whole 3; whole 4; whole 5]%nat c OpRelease6
  else if op =? 86 (* RESERVE(10) *) then
    if_clear [(1, 0, 1); (1, 2, 2); (1, 5, 3); whole 2; whole 4; whole 5; whole 6; whole 9]%nat c
      (OpReserve10 (bf 1 4 1 c) (bf 1 1 1 c) (ub 3 4 c) (ub 7 9 c))
  else if op =? 87 (* RELEASE(10) *) then
    if_clear [(1, 0, 1); (1, 2, 2); (1, 5, 3); whole 2; whole 4; whole 5; whole 6; whole 9]%nat c
      (OpRelease10 (bf 1 4 1 c) (bf 1 1 1 c) (ub 3 4 c) (ub 7 9 c))
  else if op =? 94 (* PERSISTENT RESERVE IN *) then
    if_clear [(1, 5, 3); whole 2; whole 3; whole 4; whole 5; whole 6; whole 9]%nat c
      (OpPrIn (bf 1 0 5 c) (ub 7 9 c))
  else if op =? 95 (* PERSISTENT RESERVE OUT *) then
    if_clear [(1, 5, 3); whole 3; whole 4; whole 9]%nat c
      (OpPrOut (bf 1 0 5 c) (bf 2 4 4 c) (bf 2 0 4 c) (ub 5 9 c))
  else None.

(** A CDB of the wrong length is not understood. *)
Definition interpret (c : bytes) : option scsi_op :=
  if zlen c =? cdb_length (byte_at 0 c) then interpret_op c else None.

(** * Parameter data *)

(** UNMAP parameter list (SBC-3, 5.28.2): data length, block descriptor data length, and
    the ranges of 16 bytes each. *)
Fixpoint unmap_ranges (n : nat) (l : bytes) : list (Z * Z) :=
  match n with
  | O => []
  | S m => (ub 0 8 l, ub 8 12 l) :: unmap_ranges m (skipn 16 l)
  end.
Definition unmap_data_length (p : bytes) : Z := ub 0 2 p.
Definition unmap_block_descriptor_length (p : bytes) : Z := ub 2 4 p.
Definition unmap_descriptors (p : bytes) : list (Z * Z) :=
  unmap_ranges (Z.to_nat (unmap_block_descriptor_length p / 16)) (skipn 8 p).

(** PERSISTENT RESERVE OUT parameter list (SPC-4, 6.16.3): the two keys and the flags. *)
Record pr_parameters := PrParameters {
  p_key : Z; p_sa_key : Z; p_aptpl : Z; p_all_tg_pt : Z; p_spec_i_pt : Z }.
Definition pr_basic (p : bytes) : option pr_parameters :=
  if (zlen p =? 24) && (ub 16 20 p =? 0) && clear [(20, 1, 1); (20, 4, 4); whole 21; whole 22; whole 23]%nat p
  then Some (PrParameters (ub 0 8 p) (ub 8 16 p) (bf 20 0 1 p) (bf 20 2 1 p) (bf 20 3 1 p))
  else None.
(** REGISTER AND MOVE (SPC-4, 6.16.4): keys, APTPL, UNREG, relative port, TransportID. *)
Record pr_move := PrMove {
  m_key : Z; m_sa_key : Z; m_aptpl : Z; m_unreg : Z; m_port : Z; m_transport_id : bytes }.
Definition pr_register_and_move (p : bytes) : option pr_move :=
  if (24 <=? zlen p) && (ub 20 24 p =? zlen p - 24) && clear [whole 16; (17, 2, 6)]%nat p
  then Some (PrMove (ub 0 8 p) (ub 8 16 p) (bf 17 0 1 p) (bf 17 1 1 p) (ub 18 20 p) (skipn 24 p))
  else None.

(** * Commands as seen from outside *)

(** The user may set some of the attributes [names] (and no others) before executing; an
    attribute that is not set counts as 0. *)
Definition only_sets (names : list string) (kw : attributes) : Prop :=
  Forall (fun p => In (fst p) names) kw.
Definition setting (n : string) (kw : attributes) : Z :=
  match lookup n kw with Some v => v | None => 0 end.
(** The settings fit their fields of the given widths in bits. *)
Definition settings_fit (l : list (string * Z)) (kw : attributes) : Prop :=
  Forall (fun p => 0 <= setting (fst p) kw < 2 ^ snd p) l.

(** A command that reads: it is issued exactly if [ok], and then it asks the device for
    [op] and the transport for [n] bytes of data-in. *)
Definition asks (r : result scsi_command) (ok : Prop) (n : Z) (op : scsi_op) : Prop :=
  match r with
  | Ok (ReadCmd cdb m) => ok /\ m = n /\ interpret cdb = Some op
  | Ok (WriteCmd _ _) => False
  | Err _ => ~ ok
  end.
(** A command that writes: it is issued exactly if [ok], and then it asks the device for
    [op] and sends [data]. *)
Definition tells (r : result scsi_command) (ok : Prop) (data : bytes) (op : scsi_op) : Prop :=
  match r with
  | Ok (WriteCmd cdb d) => ok /\ d = data /\ interpret cdb = Some op
  | Ok (ReadCmd _ _) => False
  | Err _ => ~ ok
  end.

(** * Data-in *)

(** The parameter data of REPORT LUNS for a list of 8-byte LUNs (SPC-4, 6.33). *)
Definition luns_data (luns : list Z) : bytes :=
  (be_bytes 4 (8 * zlen luns) ++ zeros 4 ++ flat_map (be_bytes 8) luns)%list.
(** Simple single-level addressing (SAM-5, 4.7.4): address method 00b, all other levels 0,
    that is, the LUN below 16384 in the first two bytes. *)
Definition single_level (x : Z) : Prop := exists lun, 0 <= lun < 16384 /\ x = lun * 2 ^ 48.

(** The parameter data of PERSISTENT RESERVE IN, READ KEYS (SPC-4, 6.15.2). *)
Definition keys_data (generation : Z) (keys : list Z) : bytes :=
  (be_bytes 4 generation ++ be_bytes 4 (8 * zlen keys) ++ flat_map (be_bytes 8) keys)%list.

(** The parameter data of REPORT TARGET PORT GROUPS (SPC-4, 6.37): target port groups with
    asymmetric access state, PREF bit, the byte of supported states, group number, status
    code and the relative target port identifiers. *)
Record port_group := PortGroup {
  g_state : Z; g_pref : Z; g_supported : Z; g_number : Z; g_status : Z; g_ports : list Z }.
Definition port_data (p : Z) : bytes := 0 :: 0 :: be_bytes 2 p.
Definition group_data (g : port_group) : bytes :=
  ([g_state g + 128 * g_pref g; g_supported g] ++ be_bytes 2 (g_number g) ++
   [0; g_status g; 0; zlen (g_ports g)] ++ flat_map port_data (g_ports g))%list.
Definition length_only_data (groups : list port_group) : bytes :=
  let d := flat_map group_data groups in (be_bytes 4 (zlen d) ++ d)%list.
(** Extended header: format type 1, implicit transition time [t]. *)
Definition extended_data (t : Z) (groups : list port_group) : bytes :=
  let d := flat_map group_data groups in (be_bytes 4 (4 + zlen d) ++ [16; t; 0; 0] ++ d)%list.
Definition group_ok (g : port_group) : Prop :=
  0 <= g_state g < 16 /\ 0 <= g_pref g < 2 /\ 0 <= g_supported g < 256 /\ 0 <= g_number g < 65536 /\
  0 <= g_status g < 256 /\ zlen (g_ports g) < 256 /\ Forall (fun p => 0 <= p < 65536) (g_ports g).
