(** Vocabulary for the properties of the command classes: all commands of the library with
    their arguments, what a user means by them, which arguments are acceptable, and the
    objects that the responses are expected to become.  The specification of the device is
    in SpecDevice.v. *)
From Coq Require Import String ZArith List Bool.
From Verif Require Import Base OsCommon Instruct Command CdbBlock CdbPrimary SpecDevice.
Import ListNotations.
Local Open Scope string_scope.
Local Open Scope Z_scope.

(** * Requests *)

(** The settings of READ and WRITE (10, 12, 16) and COMPARE AND WRITE, their widths in bits
    and the flags they stand for.  The classes call the protection field rdprotect,
    wrprotect or reserved. *)
Definition rw10_names (protect : string) : list string := [protect; "dpo"; "fua"; "fua_nv"; "group_number"].
Definition rw10_widths (protect : string) : list (string * Z) :=
  [(protect, 3); ("dpo", 1); ("fua", 1); ("fua_nv", 1); ("group_number", 5)].
Definition rw10_flags (protect : string) (kw : attributes) : rw_flags :=
  RwFlags (setting protect kw) (setting "dpo" kw) (setting "fua" kw) (setting "fua_nv" kw) (setting "group_number" kw).

Definition unmap_fits (ranges : list (Z * Z)) (kw : attributes) : Prop :=
  Forall (fun r => 0 <= fst r < 2 ^ 64 /\ 0 <= snd r < 2 ^ 32) ranges /\ zlen ranges <= 4095 /\
  settings_fit [("GROUP_NUMBER", 5)] kw.

(** RESERVE(10) and RELEASE(10): the third party device id and how it is sent (SPC-2, 7.21). *)
Definition third_party_data (id : Z) : bytes := if 255 <=? id then be_bytes 8 id else [].
Definition third_party_op (op : Z -> Z -> Z -> Z -> scsi_op) (id : Z) : scsi_op :=
  if id <=? 0 then op 0 0 0 0 else if id <? 255 then op 1 0 id 0 else op 1 1 0 8.

(** PERSISTENT RESERVE OUT. *)
Definition basic_names : list string :=
  ["activate_persist_through_power_loss"; "all_target_ports"; "specify_initiator_ports"].
Definition basic_fits (key sakey pr_type : Z) (kw : attributes) : Prop :=
  0 <= key < 2 ^ 64 /\ 0 <= sakey < 2 ^ 64 /\ 0 <= pr_type < 2 ^ 4 /\
  settings_fit [("all_target_ports", 1); ("specify_initiator_ports", 1)] kw.
Definition move_names : list string :=
  ["activate_persist_through_power_loss"; "unregister"; "relative_target_port_identifier"].
Definition move_widths : list (string * Z) :=
  [("activate_persist_through_power_loss", 1); ("unregister", 1); ("relative_target_port_identifier", 16)].
Definition move_fits (key sakey pr_type : Z) (kw : attributes) (t : transport_id) : Prop :=
  0 <= key < 2 ^ 64 /\ 0 <= sakey < 2 ^ 64 /\ 0 <= pr_type < 2 ^ 4 /\ settings_fit move_widths kw /\
  0 <= protocol_identifier t < 2 ^ 4 /\ 0 <= format_code t < 2 ^ 2 /\ zlen (specific_data t) + 25 < 2 ^ 32.

(** * All commands *)

(** A command of the library with its constructor arguments and the attributes [kw] that
    the user sets on the object (or, for PERSISTENT RESERVE OUT, passes as keywords). *)
Inductive command : Type :=
| Read6 (lba tl bs : Z)
| Read10 (lba tl bs : Z) (kw : attributes)
| Read12 (lba tl bs : Z) (kw : attributes)
| Read16 (lba tl bs : Z) (kw : attributes)
| Write6 (lba : Z) (buffer : bytes) (bs : Z)
| Write10 (lba : Z) (buffer : bytes) (bs : Z) (kw : attributes)
| Write12 (lba : Z) (buffer : bytes) (bs : Z) (kw : attributes)
| Write16 (lba : Z) (buffer : bytes) (bs : Z) (kw : attributes)
| WriteSame10 (lba : Z) (buffer : bytes) (n bs : Z) (kw : attributes)
| WriteSame16 (lba : Z) (buffer : bytes) (n bs : Z) (kw : attributes)
| CompareAndWrite (lba : Z) (buffer : bytes) (n bs : Z) (kw : attributes)
| Unmap (ranges : list (Z * Z)) (kw : attributes)
| ReadCapacity10 (lba pmi : Z)
| ReadCapacity16 (lba pmi : Z)
| TestUnitReady
| ReportLuns (select alloc : Z) (allow : bool)
| Rtpg (format alloc : Z)
| LogSense (page subpage alloc : Z) (kw : attributes)
| ReceiveCopy (alloc : Z)
| ReceiveDiagnostic (page alloc : Z) (parse : bytes -> result pyval)
| Inquiry (evpd page alloc : Z) (parse : bytes -> result pyval)
| Reserve6
| Release6
| Reserve10 (id : Z)
| Release10 (id : Z)
| PrIn (sa alloc : Z)
| PrOutBasic (sa key sakey pr_type : Z) (kw : attributes)
| PrOutMove (key sakey pr_type : Z) (kw : attributes) (t : transport_id).

(** The command object that the user constructs and whose attributes the user sets. *)
Definition with_settings (kw : attributes) (r : result cdb_object) : result cdb_object :=
  do o <- r; Ok (assigned kw o).
Definition constructed (c : command) : result cdb_object :=
  match c with
  | Read6 lba tl bs => read6 lba tl bs
  | Read10 lba tl bs kw => with_settings kw (read10 lba tl bs)
  | Read12 lba tl bs kw => with_settings kw (read12 lba tl bs)
  | Read16 lba tl bs kw => with_settings kw (read16 lba tl bs)
  | Write6 lba buffer bs => write6 lba buffer bs
  | Write10 lba buffer bs kw => with_settings kw (write10 lba buffer bs)
  | Write12 lba buffer bs kw => with_settings kw (write12 lba buffer bs)
  | Write16 lba buffer bs kw => with_settings kw (write16 lba buffer bs)
  | WriteSame10 lba buffer n bs kw => with_settings kw (write_same10 lba buffer n bs)
  | WriteSame16 lba buffer n bs kw => with_settings kw (write_same16 lba buffer n bs)
  | CompareAndWrite lba buffer n bs kw => with_settings kw (compare_and_write lba buffer n bs)
  | Unmap ranges kw => with_settings kw (unmap ranges)
  | ReadCapacity10 lba pmi => read_capacity10 lba pmi
  | ReadCapacity16 lba pmi => read_capacity16 lba pmi
  | TestUnitReady => test_unit_ready
  | ReportLuns select alloc allow => report_luns select alloc allow
  | Rtpg format alloc => rtpg format alloc
  | LogSense page subpage alloc kw => with_settings kw (log_sense page subpage alloc)
  | ReceiveCopy alloc => receive_copy alloc 0
  | ReceiveDiagnostic page alloc parse => receive_diagnostic page alloc parse
  | Inquiry evpd page alloc parse => inquiry evpd page alloc parse
  | Reserve6 => reserve6
  | Release6 => release6
  | Reserve10 id => reserve10 id
  | Release10 id => release10 id
  | PrIn sa alloc => pr_in sa alloc
  | PrOutBasic sa key sakey pr_type kw => pr_out sa key sakey pr_type kw None
  | PrOutMove key sakey pr_type kw t => pr_out 7 key sakey pr_type kw (Some t)
  end.
(** What execute() hands to the transport. *)
Definition issued (c : command) : result scsi_command := do o <- constructed c; request o.

(** The command is used as documented: only its optional attributes are set, and block
    sizes are positive. *)
Definition proper (c : command) : Prop :=
  match c with
  | Read10 _ _ _ kw => only_sets (rw10_names "rdprotect") kw
  | Read12 _ _ _ kw => only_sets ["reserved"; "dpo"; "fua"] kw
  | Read16 _ _ _ kw => only_sets (rw10_names "reserved") kw
  | Write6 _ _ bs => 1 <= bs
  | Write10 _ _ bs kw | Write12 _ _ bs kw | Write16 _ _ bs kw | CompareAndWrite _ _ _ bs kw =>
      only_sets (rw10_names "wrprotect") kw /\ 1 <= bs
  | WriteSame10 _ _ _ _ kw => only_sets ["wrprotect"; "pbdata"; "lbdata"; "group_number"] kw
  | WriteSame16 _ _ _ _ kw => only_sets ["wrprotect"; "unmap"; "pbdata"; "lbdata"; "group_number"] kw
  | Unmap _ kw => only_sets ["GROUP_NUMBER"] kw
  | LogSense _ _ _ kw => only_sets ["sp"; "pc"; "parameter_pointer"] kw
  | PrOutBasic sa _ _ _ kw => 0 <= sa <= 8 /\ sa <> 7 /\ only_sets basic_names kw
  | PrOutMove _ _ _ kw _ => only_sets move_names kw
  | _ => True
  end.

(** Every argument fits the place that the CDB or the parameter list has for it. *)
Definition arguments_fit (c : command) : Prop :=
  match c with
  | Read6 lba tl _ => 0 <= lba < 2 ^ 21 /\ 0 <= tl < 2 ^ 8
  | Read10 lba tl _ kw => 0 <= lba < 2 ^ 32 /\ 0 <= tl < 2 ^ 16 /\ settings_fit (rw10_widths "rdprotect") kw
  | Read12 lba tl _ kw =>
      0 <= lba < 2 ^ 32 /\ 0 <= tl < 2 ^ 32 /\ settings_fit [("reserved", 3); ("dpo", 1); ("fua", 1)] kw
  | Read16 lba tl _ kw => 0 <= lba < 2 ^ 64 /\ 0 <= tl < 2 ^ 32 /\ settings_fit (rw10_widths "reserved") kw
  | Write6 lba buffer bs => 0 <= lba < 2 ^ 21 /\ zlen buffer mod bs = 0 /\ 1 <= zlen buffer / bs <= 256
  | Write10 lba buffer bs kw =>
      0 <= lba < 2 ^ 32 /\ zlen buffer mod bs = 0 /\ zlen buffer / bs < 2 ^ 16 /\ settings_fit (rw10_widths "wrprotect") kw
  | Write12 lba buffer bs kw =>
      0 <= lba < 2 ^ 32 /\ zlen buffer mod bs = 0 /\ 0 < zlen buffer / bs < 2 ^ 32 /\ settings_fit (rw10_widths "wrprotect") kw
  | Write16 lba buffer bs kw =>
      0 <= lba < 2 ^ 64 /\ zlen buffer mod bs = 0 /\ zlen buffer / bs < 2 ^ 32 /\ settings_fit (rw10_widths "wrprotect") kw
  | WriteSame10 lba buffer n _ kw =>
      0 <= lba < 2 ^ 32 /\ 0 <= n < 2 ^ 16 /\ zlen buffer mod 512 = 0 /\
      settings_fit [("wrprotect", 3); ("pbdata", 1); ("lbdata", 1); ("group_number", 5)] kw
  | WriteSame16 lba buffer n _ kw =>
      0 <= lba < 2 ^ 64 /\ 0 <= n < 2 ^ 32 /\ zlen buffer mod 512 = 0 /\
      settings_fit [("wrprotect", 3); ("unmap", 1); ("pbdata", 1); ("lbdata", 1); ("group_number", 5)] kw
  | CompareAndWrite lba buffer n bs kw =>
      0 <= lba < 2 ^ 64 /\ 0 <= n < 2 ^ 8 /\ zlen buffer mod bs = 0 /\ settings_fit (rw10_widths "wrprotect") kw
  | Unmap ranges kw => unmap_fits ranges kw
  | ReadCapacity10 lba pmi => 0 <= lba < 2 ^ 32 /\ 0 <= pmi < 2 ^ 1
  | ReadCapacity16 lba pmi => 0 <= lba < 2 ^ 64 /\ 0 <= pmi < 2 ^ 1
  | TestUnitReady | Reserve6 | Release6 => True
  | ReportLuns select alloc _ => 0 <= select < 2 ^ 8 /\ 0 <= alloc < 2 ^ 32
  | Rtpg format alloc => 0 <= format <= 1 /\ 0 <= alloc < 2 ^ 32
  | LogSense page subpage alloc kw =>
      0 <= page < 2 ^ 6 /\ 0 <= subpage < 2 ^ 8 /\ 0 <= alloc < 2 ^ 16 /\
      settings_fit [("sp", 1); ("pc", 2); ("parameter_pointer", 16)] kw
  | ReceiveCopy alloc => 0 <= alloc < 2 ^ 32
  | ReceiveDiagnostic page alloc _ => 0 <= page < 2 ^ 8 /\ 0 <= alloc < 2 ^ 16
  | Inquiry evpd page alloc _ => 0 <= evpd < 2 ^ 1 /\ 0 <= page < 2 ^ 8 /\ 0 <= alloc < 2 ^ 16
  | Reserve10 id | Release10 id => id < 2 ^ 64
  | PrIn sa alloc => 0 <= sa < 2 ^ 5 /\ 8 <= alloc < 2 ^ 16
  | PrOutBasic sa key sakey pr_type kw => basic_fits key sakey pr_type kw
  | PrOutMove key sakey pr_type kw t => move_fits key sakey pr_type kw t
  end.

(** The limits that the classes assert themselves.  All are checked by the constructor,
    but the range of COMPARE AND WRITE, which execute() checks. *)
Definition beyond_at_construction (c : command) : Prop :=
  match c with
  | Read6 lba tl _ => 2 ^ 21 <= lba \/ 2 ^ 8 <= tl
  | Read10 lba tl _ _ => 2 ^ 32 <= lba \/ 2 ^ 16 <= tl
  | Read12 lba tl _ _ => 2 ^ 32 <= lba \/ 2 ^ 32 <= tl
  | Read16 lba tl _ _ => 2 ^ 64 <= lba \/ 2 ^ 32 <= tl
  | Write6 lba buffer bs => 2 ^ 21 <= lba \/ zlen buffer mod bs <> 0 \/ zlen buffer / bs < 1 \/ 256 < zlen buffer / bs
  | Write10 lba buffer bs _ => 2 ^ 32 <= lba \/ zlen buffer mod bs <> 0 \/ 2 ^ 16 <= zlen buffer / bs
  | Write12 lba buffer bs _ =>
      2 ^ 32 <= lba \/ zlen buffer mod bs <> 0 \/ zlen buffer / bs < 1 \/ 2 ^ 32 <= zlen buffer / bs
  | Write16 lba buffer bs _ => 2 ^ 64 <= lba \/ zlen buffer mod bs <> 0 \/ 2 ^ 32 <= zlen buffer / bs
  | WriteSame10 lba buffer n _ _ => 2 ^ 32 <= lba \/ 2 ^ 16 <= n \/ zlen buffer mod 512 <> 0
  | WriteSame16 lba buffer n _ _ => 2 ^ 64 <= lba \/ 2 ^ 32 <= n \/ zlen buffer mod 512 <> 0
  | CompareAndWrite _ buffer _ bs _ => zlen buffer mod bs <> 0
  | Rtpg format _ => format <> 0 /\ format <> 1
  | PrIn _ alloc => alloc < 8
  | _ => False
  end.
Definition beyond_at_execution (c : command) : Prop :=
  match c with
  | CompareAndWrite lba _ n _ _ => 2 ^ 64 <= lba \/ 2 ^ 8 <= n
  | _ => False
  end.
(** UNMAP packs its ranges, PERSISTENT RESERVE OUT its parameter list and RESERVE(10) and
    RELEASE(10) the device id already when they are constructed. *)
Definition packs_at_construction (c : command) : Prop :=
  match c with
  | Unmap _ _ | Reserve10 _ | Release10 _ | PrOutBasic _ _ _ _ _ | PrOutMove _ _ _ _ _ => True
  | _ => False
  end.

(** What the user asks the device to do. *)
Definition meaning (c : command) : scsi_op :=
  match c with
  | Read6 lba tl _ => OpRead lba (if tl =? 0 then 256 else tl) no_flags
  | Read10 lba tl _ kw => OpRead lba tl (rw10_flags "rdprotect" kw)
  | Read12 lba tl _ kw => OpRead lba tl (RwFlags (setting "reserved" kw) (setting "dpo" kw) (setting "fua" kw) 0 0)
  | Read16 lba tl _ kw => OpRead lba tl (rw10_flags "reserved" kw)
  | Write6 lba buffer bs => OpWrite lba (zlen buffer / bs) no_flags
  | Write10 lba buffer bs kw | Write12 lba buffer bs kw | Write16 lba buffer bs kw =>
      OpWrite lba (zlen buffer / bs) (rw10_flags "wrprotect" kw)
  | WriteSame10 lba _ n _ kw =>
      OpWriteSame lba n (setting "wrprotect" kw) 0 (setting "pbdata" kw) (setting "lbdata" kw) (setting "group_number" kw)
  | WriteSame16 lba _ n _ kw =>
      OpWriteSame lba n (setting "wrprotect" kw) (setting "unmap" kw) (setting "pbdata" kw) (setting "lbdata" kw)
        (setting "group_number" kw)
  | CompareAndWrite lba _ n _ kw => OpCompareAndWrite lba n (rw10_flags "wrprotect" kw)
  | Unmap ranges kw => OpUnmap 0 (setting "GROUP_NUMBER" kw) (8 + 16 * zlen ranges)
  | ReadCapacity10 lba pmi => OpReadCapacity10 lba pmi
  | ReadCapacity16 lba pmi => OpReadCapacity16 lba pmi 32
  | TestUnitReady => OpTestUnitReady
  | ReportLuns select alloc _ => OpReportLuns select alloc
  | Rtpg format alloc => OpReportTargetPortGroups format alloc
  | LogSense page subpage alloc kw =>
      OpLogSense (setting "sp" kw) page subpage (setting "pc" kw) (setting "parameter_pointer" kw) alloc
  | ReceiveCopy alloc => OpReceiveCopyParameters alloc
  | ReceiveDiagnostic page alloc _ => OpReceiveDiagnostic 1 page alloc
  | Inquiry evpd page alloc _ => OpInquiry evpd page alloc
  | Reserve6 => OpReserve6
  | Release6 => OpRelease6
  | Reserve10 id => third_party_op OpReserve10 id
  | Release10 id => third_party_op OpRelease10 id
  | PrIn sa alloc => OpPrIn sa alloc
  | PrOutBasic sa _ _ pr_type _ => OpPrOut sa 0 pr_type 24
  | PrOutMove _ _ pr_type _ t => OpPrOut 7 0 pr_type (25 + zlen (specific_data t))
  end.

(** The operation codes of SBC-3 and SPC-4. *)
Definition operation_code (c : command) : Z :=
  match c with
  | Read6 _ _ _ => 8 | Read10 _ _ _ _ => 40 | Read12 _ _ _ _ => 168 | Read16 _ _ _ _ => 136
  | Write6 _ _ _ => 10 | Write10 _ _ _ _ => 42 | Write12 _ _ _ _ => 170 | Write16 _ _ _ _ => 138
  | WriteSame10 _ _ _ _ _ => 65 | WriteSame16 _ _ _ _ _ => 147 | CompareAndWrite _ _ _ _ _ => 137
  | Unmap _ _ => 66 | ReadCapacity10 _ _ => 37 | ReadCapacity16 _ _ => 158
  | TestUnitReady => 0 | ReportLuns _ _ _ => 160 | Rtpg _ _ => 163 | LogSense _ _ _ _ => 77
  | ReceiveCopy _ => 132 | ReceiveDiagnostic _ _ _ => 28 | Inquiry _ _ _ _ => 18
  | Reserve6 => 22 | Release6 => 23 | Reserve10 _ => 86 | Release10 _ => 87
  | PrIn _ _ => 94 | PrOutBasic _ _ _ _ _ => 95 | PrOutMove _ _ _ _ _ => 95
  end.

(** * Responses *)

(** The result of REPORT LUNS: the LUNs as numbers and the raw entries. *)
Definition luns_object (luns shown : list Z) : pyval :=
  PObj "ReportLunsData"
    [("lun_list_length", PInt (8 * zlen luns)); ("lun_list", PList (map PInt shown));
     ("hex_lun_list", PList (map PInt luns))].

(** The result of PERSISTENT RESERVE IN, READ KEYS. *)
Definition keys_object (generation : Z) (count : Z) (keys : pyval) : pyval :=
  PObj "PersistentReserveInReadKeysResponse"
    [("pr_generation", PInt generation); ("additional_length", PInt (8 * count)); ("key_list", keys)].

(** [x] if the response is that long. *)
Definition from (n : Z) (b : bytes) (x : Z) : pyval := if n <=? zlen b then PInt x else PNone.

(** The results of REPORT TARGET PORT GROUPS. *)
Definition port_object (p : Z) : pyval :=
  PObj "TargetPortDescriptor" [("relative_target_port_identifier", PInt p)].
Definition bit (i : Z) (b : Z) : Z := (b / 2 ^ i) mod 2.
Definition group_object (g : port_group) : pyval :=
  PObj "TargetPortGroupDescriptor"
    [("asymetric_access_state", PInt (g_state g)); ("pref", PInt (g_pref g));
     ("ao_sup", PInt (bit 0 (g_supported g))); ("an_sup", PInt (bit 1 (g_supported g)));
     ("s_sup", PInt (bit 2 (g_supported g))); ("u_sup", PInt (bit 3 (g_supported g)));
     ("lbd_sup", PInt (bit 4 (g_supported g))); ("o_sup", PInt (bit 6 (g_supported g)));
     ("t_sup", PInt (bit 7 (g_supported g)));
     ("target_port_group", PInt (g_number g)); ("status_code", PInt (g_status g));
     ("target_port_count", PInt (zlen (g_ports g)));
     ("target_port_list", PList (map port_object (g_ports g)))].
Definition groups_object (class : string) (l : attrs) (groups : list port_group) : pyval :=
  PObj class (l ++ [("descriptor_list", PList (map group_object groups))])%list.
(** The list of the descriptors in a response, or its exception. *)
Definition descriptors_in (r : result pyval) : result (list pyval) :=
  match r with
  | Ok (PObj _ l) => match lookup "descriptor_list" l with Some (PList d) => Ok d | _ => Ok [] end
  | Ok _ => Ok []
  | Err e => Err e
  end.
(** A group as shown without its ports, and with a negative number of them. *)
Definition unported (g : port_group) : pyval :=
  match group_object (PortGroup (g_state g) (g_pref g) (g_supported g) (g_number g) (g_status g) []) with
  | PObj class l => PObj class (firstn 11 l ++ [("target_port_count", PInt (zlen (g_ports g) - 256)); ("target_port_list", PList [])])%list
  | o => o
  end.
(** A descriptor read one byte too early. *)
Definition misread (g : port_group) : port_group :=
  PortGroup 0 0 (g_state g + 128 * g_pref g) (256 * g_supported g + g_number g / 256) 0 [].
