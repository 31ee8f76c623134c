(** Properties of the command classes: C32-C34, C36-C48, C60.
    [asks] and [tells] (SpecDevice.v) say that a command is issued exactly if a condition
    holds, and that then the device decodes the CDB to the given operation and the transport
    is asked for so many bytes, or gets the given data. *)
From Coq Require Import String ZArith List Bool Lia.
From Verif Require Import Base BaseFacts OsCommon Instruct Command CdbBlock CdbPrimary SpecDevice SpecCdb
  CdbBlockFacts CdbSixFacts UnmapFacts CdbPrimaryFacts CdbReserveFacts CdbPersistFacts CdbAllFacts
  CdbResponseFacts RtpgFacts CdbPropFacts.
Import ListNotations.
Local Open Scope string_scope.
Local Open Scope Z_scope.

(** ** C32, C33: READ *)

Theorem C32_read6 : forall lba tl bs,
  asks (do o <- read6 lba tl bs; request o) (0 <= lba < 2 ^ 21 /\ 0 <= tl < 2 ^ 8)
   (if bs * tl =? 0 then 131072 else bs * tl)
   (OpRead lba (if tl =? 0 then 256 else tl) no_flags).
Proof. exact read6_spec. Qed.
Theorem C32_read10 : forall lba tl bs kw, only_sets (rw10_names "rdprotect") kw ->
  asks (do o <- read10 lba tl bs; request (assigned kw o))
   (0 <= lba < 2 ^ 32 /\ 0 <= tl < 2 ^ 16 /\ settings_fit (rw10_widths "rdprotect") kw)
   (bs * tl) (OpRead lba tl (rw10_flags "rdprotect" kw)).
Proof. exact read10_spec. Qed.
Theorem C32_read12 : forall lba tl bs kw, only_sets ["reserved"; "dpo"; "fua"] kw ->
  asks (do o <- read12 lba tl bs; request (assigned kw o))
   (0 <= lba < 2 ^ 32 /\ 0 <= tl < 2 ^ 32 /\ settings_fit [("reserved", 3); ("dpo", 1); ("fua", 1)] kw)
   (bs * tl) (OpRead lba tl (RwFlags (setting "reserved" kw) (setting "dpo" kw) (setting "fua" kw) 0 0)).
Proof. exact read12_spec. Qed.
Theorem C32_read16 : forall lba tl bs kw, only_sets (rw10_names "reserved") kw ->
  asks (do o <- read16 lba tl bs; request (assigned kw o))
   (0 <= lba < 2 ^ 64 /\ 0 <= tl < 2 ^ 32 /\ settings_fit (rw10_widths "reserved") kw)
   (bs * tl) (OpRead lba tl (rw10_flags "reserved" kw)).
Proof. exact read16_spec. Qed.
Example C32_example :
  (do o <- read6 123456 0 512; request o) = Ok (ReadCmd [8; 1; 226; 64; 0; 0] 131072) /\
  interpret [8; 1; 226; 64; 0; 0] = Some (OpRead 123456 256 no_flags) /\
  (do o <- read10 4294967295 3 512; request (assigned [("fua", 1)] o)) =
    Ok (ReadCmd [40; 8; 255; 255; 255; 255; 0; 0; 3; 0] 1536) /\
  (do o <- read12 1 65536 512; request o) = Ok (ReadCmd [168; 0; 0; 0; 0; 1; 0; 1; 0; 0; 0; 0] 33554432) /\
  (do o <- read16 (2 ^ 64 - 1) 1 4096; request o) =
    Ok (ReadCmd [136; 0; 255; 255; 255; 255; 255; 255; 255; 255; 0; 0; 0; 1; 0; 0] 4096) /\
  (do o <- read10 (2 ^ 32) 3 512; request o) = Err EAssertion /\
  (do o <- read10 (-1) 3 512; request o) = Err EInstruct.
Proof. vm_compute. repeat split; reflexivity. Qed.

(** The number of bytes asked for is that of the requested blocks... *)
Theorem C33_read_size : forall c lba tl bs kw k,
  In c [Read10 lba tl bs kw; Read12 lba tl bs kw; Read16 lba tl bs kw] -> proper c -> issued c = Ok k ->
  exists cdb, k = ReadCmd cdb (tl * bs).
Proof. exact read_size. Qed.
Theorem C33_read6_size : forall lba tl bs k, 1 <= bs -> 1 <= tl -> issued (Read6 lba tl bs) = Ok k ->
  exists cdb, k = ReadCmd cdb (tl * bs).
Proof. exact read6_size. Qed.
(** ... but for READ(6) of 256 blocks only if the block size is 512. *)
Theorem C33_read6_256_size : forall lba bs k, issued (Read6 lba 0 bs) = Ok k ->
  exists cdb, k = ReadCmd cdb 131072 /\ interpret cdb = Some (OpRead lba 256 no_flags) /\
    (131072 = 256 * bs <-> bs = 512).
Proof. exact read6_256_size. Qed.
Theorem C33_read6_size_refuted :
  ~ forall lba tl bs cdb n b f, 1 <= bs -> issued (Read6 lba tl bs) = Ok (ReadCmd cdb n) ->
      interpret cdb = Some (OpRead lba b f) -> n = b * bs.
Proof. exact read6_size_refuted. Qed.
Example C33_example :
  issued (Read6 7 0 4096) = Ok (ReadCmd [8; 0; 0; 7; 0; 0] 131072) /\
  issued (Read6 7 2 4096) = Ok (ReadCmd [8; 0; 0; 7; 2; 0] 8192) /\
  issued (Read16 7 0 4096 []) = Ok (ReadCmd [136; 0; 0; 0; 0; 0; 0; 0; 0; 7; 0; 0; 0; 0; 0; 0] 0).
Proof. vm_compute. auto. Qed.

(** ** C34: WRITE *)

Theorem C34_write6 : forall lba buffer bs, 1 <= bs ->
  tells (do o <- write6 lba buffer bs; request o)
   (0 <= lba < 2 ^ 21 /\ zlen buffer mod bs = 0 /\ 1 <= zlen buffer / bs <= 256)
   buffer (OpWrite lba (zlen buffer / bs) no_flags).
Proof. exact write6_spec. Qed.
Theorem C34_write10 : forall lba buffer bs kw, only_sets (rw10_names "wrprotect") kw -> 1 <= bs ->
  tells (do o <- write10 lba buffer bs; request (assigned kw o))
   (0 <= lba < 2 ^ 32 /\ zlen buffer mod bs = 0 /\ zlen buffer / bs < 2 ^ 16 /\ settings_fit (rw10_widths "wrprotect") kw)
   buffer (OpWrite lba (zlen buffer / bs) (rw10_flags "wrprotect" kw)).
Proof. exact write10_spec. Qed.
Theorem C34_write12 : forall lba buffer bs kw, only_sets (rw10_names "wrprotect") kw -> 1 <= bs ->
  tells (do o <- write12 lba buffer bs; request (assigned kw o))
   (0 <= lba < 2 ^ 32 /\ zlen buffer mod bs = 0 /\ 0 < zlen buffer / bs < 2 ^ 32 /\ settings_fit (rw10_widths "wrprotect") kw)
   buffer (OpWrite lba (zlen buffer / bs) (rw10_flags "wrprotect" kw)).
Proof. exact write12_spec. Qed.
Theorem C34_write16 : forall lba buffer bs kw, only_sets (rw10_names "wrprotect") kw -> 1 <= bs ->
  tells (do o <- write16 lba buffer bs; request (assigned kw o))
   (0 <= lba < 2 ^ 64 /\ zlen buffer mod bs = 0 /\ zlen buffer / bs < 2 ^ 32 /\ settings_fit (rw10_widths "wrprotect") kw)
   buffer (OpWrite lba (zlen buffer / bs) (rw10_flags "wrprotect" kw)).
Proof. exact write16_spec. Qed.
(** Together: whatever is issued writes whole blocks, as many as the data consist of. *)
Theorem C34_whole_blocks : forall c lba buffer bs kw cdb d,
  In c [Write6 lba buffer bs; Write10 lba buffer bs kw; Write12 lba buffer bs kw; Write16 lba buffer bs kw] ->
  proper c -> issued c = Ok (WriteCmd cdb d) ->
  d = buffer /\ exists n f, interpret cdb = Some (OpWrite lba n f) /\ n * bs = zlen buffer.
Proof. exact write_whole_blocks. Qed.
Example C34_example :
  (do o <- write6 5 (zeros 512) 2; request o) = Ok (WriteCmd [10; 0; 0; 5; 0; 0] (zeros 512)) /\
  interpret [10; 0; 0; 5; 0; 0] = Some (OpWrite 5 256 no_flags) /\
  (do o <- write10 5 (repeat 7 1024) 512; request o) = Ok (WriteCmd [42; 0; 0; 0; 0; 5; 0; 0; 2; 0] (repeat 7 1024)) /\
  (do o <- write10 5 (repeat 7 1000) 512; request o) = Err EAssertion /\
  (do o <- write12 5 [] 512; request o) = Err EAssertion.
Proof. vm_compute. repeat split; reflexivity. Qed.

(** ** C36: WRITE SAME *)

Theorem C36_write_same10 : forall lba buffer n bs kw,
  only_sets ["wrprotect"; "pbdata"; "lbdata"; "group_number"] kw ->
  tells (do o <- write_same10 lba buffer n bs; request (assigned kw o))
   (0 <= lba < 2 ^ 32 /\ 0 <= n < 2 ^ 16 /\ zlen buffer mod 512 = 0 /\
    settings_fit [("wrprotect", 3); ("pbdata", 1); ("lbdata", 1); ("group_number", 5)] kw)
   buffer (OpWriteSame lba n (setting "wrprotect" kw) 0 (setting "pbdata" kw) (setting "lbdata" kw) (setting "group_number" kw)).
Proof. exact write_same10_spec. Qed.
Theorem C36_write_same16 : forall lba buffer n bs kw,
  only_sets ["wrprotect"; "unmap"; "pbdata"; "lbdata"; "group_number"] kw ->
  tells (do o <- write_same16 lba buffer n bs; request (assigned kw o))
   (0 <= lba < 2 ^ 64 /\ 0 <= n < 2 ^ 32 /\ zlen buffer mod 512 = 0 /\
    settings_fit [("wrprotect", 3); ("unmap", 1); ("pbdata", 1); ("lbdata", 1); ("group_number", 5)] kw)
   buffer (OpWriteSame lba n (setting "wrprotect" kw) (setting "unmap" kw) (setting "pbdata" kw) (setting "lbdata" kw) (setting "group_number" kw)).
Proof. exact write_same16_spec. Qed.
Example C36_example :
  (do o <- write_same16 9 (zeros 512) 100 512; request (assigned [("unmap", 1)] o)) =
    Ok (WriteCmd [147; 8; 0; 0; 0; 0; 0; 0; 0; 9; 0; 0; 0; 100; 0; 0] (zeros 512)) /\
  (* one block of 520 bytes is refused, 512 bytes are accepted for blocks of 4096 *)
  (do o <- write_same16 9 (zeros 520) 100 520; request o) = Err EAssertion /\
  (do o <- write_same10 9 (zeros 512) 100 4096; request o) =
    Ok (WriteCmd [65; 0; 0; 0; 0; 9; 0; 0; 100; 0] (zeros 512)).
Proof. vm_compute. repeat split; reflexivity. Qed.

(** ** C37: COMPARE AND WRITE *)

Theorem C37_compare_and_write : forall lba buffer n bs kw, only_sets (rw10_names "wrprotect") kw -> 1 <= bs ->
  tells (do o <- compare_and_write lba buffer n bs; request (assigned kw o))
   (0 <= lba < 2 ^ 64 /\ 0 <= n < 2 ^ 8 /\ zlen buffer mod bs = 0 /\ settings_fit (rw10_widths "wrprotect") kw)
   buffer (OpCompareAndWrite lba n (rw10_flags "wrprotect" kw)).
Proof. exact compare_and_write_spec. Qed.
(** The device expects n blocks to compare and n blocks to write. *)
Theorem C37_wrong_buffer_accepted : forall lba n bs, 0 <= lba < 2 ^ 64 -> 0 <= n < 2 ^ 8 -> 1 <= bs ->
  exists buffer cdb, zlen buffer <> 2 * n * bs /\
    issued (CompareAndWrite lba buffer n bs []) = Ok (WriteCmd cdb buffer).
Proof. exact compare_wrong_buffer. Qed.
Example C37_example :
  issued (CompareAndWrite 9 (zeros 1024) 1 512 []) =
    Ok (WriteCmd [137; 0; 0; 0; 0; 0; 0; 0; 0; 9; 0; 0; 0; 1; 0; 0] (zeros 1024)) /\
  issued (CompareAndWrite 9 (zeros 512) 1 512 []) =
    Ok (WriteCmd [137; 0; 0; 0; 0; 0; 0; 0; 0; 9; 0; 0; 0; 1; 0; 0] (zeros 512)) /\
  issued (CompareAndWrite 9 (zeros 512) 256 512 []) = Err EAssertion.
Proof. vm_compute. repeat split; reflexivity. Qed.

(** ** C38, C39: UNMAP *)

Theorem C38_unmap : forall ranges kw, only_sets ["GROUP_NUMBER"] kw ->
  match (do o <- unmap ranges; request (assigned kw o)) with
  | Ok (WriteCmd cdb p) =>
      unmap_fits ranges kw /\ interpret cdb = Some (OpUnmap 0 (setting "GROUP_NUMBER" kw) (zlen p)) /\
      zlen p = 8 + 16 * zlen ranges /\ unmap_block_descriptor_length p = 16 * zlen ranges /\
      unmap_descriptors p = ranges
  | Ok (ReadCmd _ _) => False
  | Err _ => ~ unmap_fits ranges kw
  end.
Proof. exact unmap_ranges_sent. Qed.
Theorem C39_data_length : forall ranges kw cdb p, only_sets ["GROUP_NUMBER"] kw ->
  issued (Unmap ranges kw) = Ok (WriteCmd cdb p) -> unmap_data_length p = (zlen p - 2) + 1.
Proof. exact unmap_length_sent. Qed.
Theorem C39_data_length_refuted :
  ~ forall ranges cdb p, issued (Unmap ranges []) = Ok (WriteCmd cdb p) -> unmap_data_length p = zlen p - 2.
Proof. exact unmap_length_refuted. Qed.
Example C38_example :
  issued (Unmap [(1, 2); (2 ^ 40, 8)] []) =
    Ok (WriteCmd [66; 0; 0; 0; 0; 0; 0; 0; 40; 0]
      [0; 39; 0; 32; 0; 0; 0; 0;  0; 0; 0; 0; 0; 0; 0; 1; 0; 0; 0; 2; 0; 0; 0; 0;
       0; 0; 1; 0; 0; 0; 0; 0; 0; 0; 0; 8; 0; 0; 0; 0]) /\
  issued (Unmap [(1, 2 ^ 32)] []) = Err EInstruct.
Proof. split; vm_compute; reflexivity. Qed.
Example C38_too_many_example : exists e, issued (Unmap (repeat (7, 1) 4096) []) = Err e.
Proof.
  assert (L : zlen (repeat (7, 1) 4096) = 4096) by (vm_compute; reflexivity). remember (repeat (7, 1) 4096) as ranges eqn:E. clear E.
  assert (K : only_sets ["GROUP_NUMBER"] []) by constructor. pose proof (C38_unmap ranges [] K) as H.
  unfold issued. cbn [constructed]. rewrite with_settings_request.
  destruct (do o <- unmap ranges; request (assigned [] o)) as [[c n|c p]|e]; [contradiction| |exists e; reflexivity].
  destruct H as [[_ [H _]] _]. lia.
Qed.

(** ** C40: READ CAPACITY *)

Theorem C40_request10 : forall lba pmi,
  asks (do o <- read_capacity10 lba pmi; request o) (0 <= lba < 2 ^ 32 /\ 0 <= pmi < 2 ^ 1) 8 (OpReadCapacity10 lba pmi).
Proof. exact read_capacity10_spec. Qed.
Theorem C40_request16 : forall lba pmi,
  asks (do o <- read_capacity16 lba pmi; request o) (0 <= lba < 2 ^ 64 /\ 0 <= pmi < 2 ^ 1) 32 (OpReadCapacity16 lba pmi 32).
Proof. exact read_capacity16_spec. Qed.
Theorem C40_response10 : forall lba pmi b, bytes_ok b ->
  yields (read_capacity10 lba pmi) (Some b) =
  if 8 <=? zlen b
  then Ok (PObj "ReportReadCapacityData10"
             [("last_logical_block_address", PInt (ub 0 4 b)); ("block_length_in_bytes", PInt (ub 4 8 b))])
  else Err EInstruct.
Proof. exact capacity10_yields. Qed.
Theorem C40_response16 : forall lba pmi b, bytes_ok b ->
  yields (read_capacity16 lba pmi) (Some b) =
  if 32 <=? zlen b
  then Ok (PObj "ReportReadCapacityData16"
             [("last_logical_block_address", PInt (ub 0 8 b)); ("block_length_in_bytes", PInt (ub 8 12 b));
              ("prot_en", PInt (bf 12 0 1 b)); ("p_type", PInt (bf 12 1 3 b));
              ("logical_blocks_per_physical_block", PInt (bf 13 0 4 b)); ("p_i_exponent", PInt (bf 13 4 4 b));
              ("lowest_aligned_lba_msb", PInt (bf 14 0 6 b)); ("troz", PInt (bf 14 6 1 b)); ("tpe", PInt (bf 14 7 1 b));
              ("lowest_aligned_lba_lsb", PInt (ub 15 16 b))])
  else Err EInstruct.
Proof. exact capacity16_yields. Qed.
Example C40_example :
  yields (read_capacity10 0 0) (Some [0; 0; 255; 255; 0; 0; 2; 0]) =
    Ok (PObj "ReportReadCapacityData10" [("last_logical_block_address", PInt 65535); ("block_length_in_bytes", PInt 512)]) /\
  yields (read_capacity10 0 0) (Some [0; 0; 255]) = Err EInstruct /\
  (do o <- read_capacity16 0 1; request o) = Ok (ReadCmd [158; 16; 0; 0; 0; 0; 0; 0; 0; 0; 0; 0; 0; 32; 1; 0] 32).
Proof. vm_compute. auto. Qed.

(** ** C41: REPORT LUNS *)

Theorem C41_simple : forall select alloc numbers rest, 16 <= alloc ->
  Forall (fun n => 0 <= n < 16384) numbers -> 8 * zlen numbers < 2 ^ 32 ->
  let luns := map (fun n => n * 2 ^ 48) numbers in
  yields (report_luns select alloc false) (Some (luns_data luns ++ rest)%list) = Ok (luns_object luns numbers).
Proof. exact report_luns_simple. Qed.
Theorem C41_refuses : forall select alloc luns rest, 16 <= alloc ->
  Forall (fun x => 0 <= x < 2 ^ 64) luns -> 8 * zlen luns < 2 ^ 32 -> ~ Forall single_level luns ->
  exists x, In x luns /\ ~ single_level x /\
    (yields (report_luns select alloc false) (Some (luns_data luns ++ rest)%list) = Err (EUnsupportedLunAddressing x) \/
     yields (report_luns select alloc false) (Some (luns_data luns ++ rest)%list) = Err (EUnsupportedLunMethod x)).
Proof. exact report_luns_refuses. Qed.
Theorem C41_allowed : forall select alloc luns rest, 16 <= alloc ->
  Forall (fun x => 0 <= x < 2 ^ 64) luns -> 8 * zlen luns < 2 ^ 32 ->
  yields (report_luns select alloc true) (Some (luns_data luns ++ rest)%list) =
  Ok (luns_object luns (map (fun x => x / 2 ^ 48) luns)).
Proof. exact report_luns_allowed. Qed.
Example C41_example :
  yields (report_luns 0 16384 false) (Some (luns_data [0; 7 * 2 ^ 48; 16383 * 2 ^ 48] ++ zeros 5)%list) =
    Ok (luns_object [0; 7 * 2 ^ 48; 16383 * 2 ^ 48] [0; 7; 16383]) /\
  yields (report_luns 0 16384 false) (Some (luns_data [0; 16384 * 2 ^ 48])) = Err (EUnsupportedLunMethod (16384 * 2 ^ 48)) /\
  yields (report_luns 0 16384 false) (Some (luns_data [2 ^ 47])) = Err (EUnsupportedLunAddressing (2 ^ 47)) /\
  yields (report_luns 0 16384 true) (Some (luns_data [16384 * 2 ^ 48])) = Ok (luns_object [16384 * 2 ^ 48] [16384]).
Proof. vm_compute. repeat split; reflexivity. Qed.

(** ** C42: length and operation code *)

(** Whatever further attributes [kw] are set on the object (operation_code is an attribute
    that can be set only for RESERVE(10)). *)
Theorem C42_length : forall c kw o k, constructed c = Ok o ->
  lookup "operation_code" (o_attrs (assigned kw o)) = None -> request (assigned kw o) = Ok k ->
  byte_at 0 (command_of k) = operation_code c /\ zlen (command_of k) = cdb_length (operation_code c).
Proof. exact cdb_shape. Qed.
Theorem C42_opcode_split : forall op, 0 <= op < 256 -> pack_struct [opcode op] [] = Ok [op].
Proof. exact opcode_split. Qed.
Theorem C42_table : forall op, 0 <= op < 256 -> command_size_by_group_code (Z.shiftr op 5) = cdb_length op.
Proof. exact group_table. Qed.
Example C42_example :
  (exists o, constructed (ReportLuns 0 16384 true) = Ok o /\
     request (assigned [("control.naca", 1); ("allocation_length", 8)] o) = Ok (ReadCmd [160; 0; 0; 0; 0; 0; 0; 0; 0; 8; 0; 4] 8)) /\
  cdb_length 160 = 12 /\ pack_struct [opcode 163] [] = Ok [163].
Proof. split; [eexists; split; [reflexivity|]|split]; vm_compute; reflexivity. Qed.

(** ** C43: arguments that do not fit are refused, all others reach the device *)

Theorem C43_no_truncation : forall c, proper c ->
  match issued c with
  | Ok k => arguments_fit c /\ interpret (command_of k) = Some (meaning c)
  | Err _ => ~ arguments_fit c
  end.
Proof. exact issued_spec. Qed.
Example C43_example :
  issued (LogSense 64 0 100 []) = Err EInstruct /\ issued (Inquiry 1 256 255 (fun _ => Ok PNone)) = Err EInstruct /\
  issued (PrIn 0 65536) = Err EInstruct /\ issued (PrIn (-1) 8) = Err EInstruct /\
  issued (LogSense 63 0 100 [("pc", 3)]) = Ok (ReadCmd [77; 0; 255; 0; 0; 0; 0; 0; 100; 0] 100).
Proof. vm_compute. repeat split; reflexivity. Qed.

(** Which refusals are the classes' own assertions, and when they come; whatever else does not
    fit is refused by the packing. *)
Theorem C43_constructor_refuses : forall c, proper c ->
  (beyond_at_construction c <-> constructed c = Err EAssertion).
Proof. exact constructor_refuses. Qed.
Theorem C43_constructor_accepts : forall c, proper c -> ~ beyond_at_construction c -> ~ packs_at_construction c ->
  exists o, constructed c = Ok o.
Proof. exact constructor_accepts. Qed.
Theorem C43_execute_refuses : forall c e, proper c -> issued c = Err e ->
  (beyond_at_construction c \/ beyond_at_execution c) /\ e = EAssertion \/
  ~ beyond_at_construction c /\ ~ beyond_at_execution c /\ e = EInstruct.
Proof. exact execute_refuses. Qed.
Example C43_refusals :
  constructed (Read6 0 256 512) = Err EAssertion /\ constructed (PrIn 0 7) = Err EAssertion /\
  constructed (Rtpg 2 8) = Err EAssertion /\ constructed (Unmap [(-1, 1)] []) = Err EInstruct /\
  (exists o, constructed (Read6 0 (-1) 512) = Ok o) /\ issued (Read6 0 (-1) 512) = Err EInstruct /\
  (exists o, constructed (CompareAndWrite 0 [] 256 512 []) = Ok o) /\
  issued (CompareAndWrite 0 [] 256 512 []) = Err EAssertion /\
  issued (Read10 0 1 512 [("fua", 2)]) = Err EInstruct.
Proof. repeat split; solve [reflexivity | eexists; reflexivity]. Qed.

(** ** C44: PERSISTENT RESERVE OUT *)

Theorem C44_basic : forall sa key sakey pr_type kw, 0 <= sa <= 8 -> sa <> 7 -> only_sets basic_names kw ->
  match (do o <- pr_out sa key sakey pr_type kw None; request o) with
  | Ok (WriteCmd cdb p) =>
      basic_fits key sakey pr_type kw /\ interpret cdb = Some (OpPrOut sa 0 pr_type (zlen p)) /\ zlen p = 24 /\
      pr_basic p = Some (PrParameters key sakey 0 (setting "all_target_ports" kw) (setting "specify_initiator_ports" kw))
  | Ok (ReadCmd _ _) => False
  | Err _ => ~ basic_fits key sakey pr_type kw
  end.
Proof. exact pr_out_basic_spec. Qed.
Theorem C44_register_and_move : forall key sakey pr_type kw t, only_sets move_names kw ->
  match (do o <- pr_out 7 key sakey pr_type kw (Some t); request o) with
  | Ok (WriteCmd cdb p) =>
      move_fits key sakey pr_type kw t /\ interpret cdb = Some (OpPrOut 7 0 pr_type (zlen p)) /\
      zlen p = 25 + zlen (specific_data t) /\
      pr_register_and_move p =
        Some (PrMove key sakey (setting "activate_persist_through_power_loss" kw) (setting "unregister" kw)
                (setting "relative_target_port_identifier" kw)
                ((protocol_identifier t + 64 * format_code t) :: specific_data t))
  | Ok (ReadCmd _ _) => False
  | Err _ => ~ move_fits key sakey pr_type kw t
  end.
Proof. exact pr_out_move_spec. Qed.
Theorem C44_refuses : forall sa key sakey pr_type kw t,
  (~ 0 <= sa <= 8 \/ (sa = 7 /\ t = None) \/ (sa <> 7 /\ t <> None)) ->
  exists e, pr_out sa key sakey pr_type kw t = Err e.
Proof. exact pr_out_refuses. Qed.
Theorem C44_aptpl_refuted :
  ~ forall sa key sakey pr_type aptpl cdb p, 0 <= sa <= 8 -> sa <> 7 -> 0 <= aptpl < 2 ->
      issued (PrOutBasic sa key sakey pr_type [("activate_persist_through_power_loss", aptpl)]) = Ok (WriteCmd cdb p) ->
      exists a b, pr_basic p = Some (PrParameters key sakey aptpl a b).
Proof. exact aptpl_refuted. Qed.
Example C44_example :
  issued (PrOutBasic 0 1 2 5 [("activate_persist_through_power_loss", 1); ("all_target_ports", 1)]) =
    Ok (WriteCmd [95; 0; 5; 0; 0; 0; 0; 0; 24; 0]
          [0; 0; 0; 0; 0; 0; 0; 1; 0; 0; 0; 0; 0; 0; 0; 2; 0; 0; 0; 0; 4; 0; 0; 0]) /\
  issued (PrOutMove 1 2 5 [("unregister", 1)] (TransportId 5 1 [0; 0; 4; 65])) =
    Ok (WriteCmd [95; 7; 5; 0; 0; 0; 0; 0; 29; 0]
          [0; 0; 0; 0; 0; 0; 0; 1; 0; 0; 0; 0; 0; 0; 0; 2; 0; 2; 0; 0; 0; 0; 0; 5; 69; 0; 0; 4; 65]) /\
  issued (PrOutBasic 9 1 2 5 []) = Err EAssertion.
Proof. vm_compute. repeat split; reflexivity. Qed.

(** ** C45: READ KEYS *)

(** The response is the device's data cut at [n] bytes (or followed by other bytes). *)
Theorem C45_read_keys : forall alloc g keys rest n, 8 <= alloc ->
  0 <= g < 2 ^ 32 -> Forall (fun x => 0 <= x < 2 ^ 64) keys -> 8 * zlen keys < 2 ^ 32 -> bytes_ok rest ->
  (8 <= n)%nat ->
  let v := keys_object g (zlen keys)
        (if (n <? length (keys_data g keys))%nat then PNone else PList (map PInt keys)) in
  yields (pr_in 0 alloc) (Some (firstn n (keys_data g keys ++ rest)%list)) = Ok v /\
  required_allocation_length v = Ok (zlen (keys_data g keys)).
Proof. exact read_keys_needed. Qed.
Theorem C45_short : forall alloc b, 8 <= alloc -> bytes_ok b -> zlen b < 8 ->
  yields (pr_in 0 alloc) (Some b) = Err EInstruct.
Proof. exact read_keys_short. Qed.
Example C45_example :
  yields (pr_in 0 24) (Some (keys_data 3 [10; 2 ^ 63])) =
    Ok (keys_object 3 2 (PList [PInt 10; PInt (2 ^ 63)])) /\
  yields (pr_in 0 16) (Some (firstn 16 (keys_data 3 [10; 2 ^ 63]))) = Ok (keys_object 3 2 PNone) /\
  required_allocation_length (keys_object 3 2 PNone) = Ok 24.
Proof. vm_compute. auto. Qed.

(** ** C46: READ RESERVATION *)

Theorem C46_read_reservation : forall alloc b, 8 <= alloc -> bytes_ok b ->
  yields (pr_in 1 alloc) (Some b) =
  if (zlen b <? 8) || (zlen b =? 21) then Err EInstruct
  else Ok (PObj "PersistentReserveInReadReservationResponse"
             [("pr_generation", PInt (ub 0 4 b)); ("additional_length", PInt (ub 4 8 b));
              ("reservation_key", from 16 b (ub 8 16 b)); ("obsolete_1", from 20 b (ub 16 20 b));
              ("reserved_1", from 21 b (ub 20 21 b)); ("pr_type", from 21 b (bf 21 0 4 b));
              ("scope", from 21 b (bf 21 4 4 b)); ("obsolete_2", from 24 b (ub 22 24 b))]).
Proof. exact read_reservation_spec. Qed.
Example C46_example :
  yields (pr_in 1 24) (Some ([0; 0; 0; 9; 0; 0; 0; 16] ++ be_bytes 8 77 ++ [0; 0; 0; 0; 0; 5; 0; 0])%list) =
    Ok (PObj "PersistentReserveInReadReservationResponse"
          [("pr_generation", PInt 9); ("additional_length", PInt 16); ("reservation_key", PInt 77);
           ("obsolete_1", PInt 0); ("reserved_1", PInt 0); ("pr_type", PInt 5); ("scope", PInt 0); ("obsolete_2", PInt 0)]) /\
  yields (pr_in 1 24) (Some [0; 0; 0; 9; 0; 0; 0; 0]) =
    Ok (PObj "PersistentReserveInReadReservationResponse"
          [("pr_generation", PInt 9); ("additional_length", PInt 0); ("reservation_key", PNone);
           ("obsolete_1", PNone); ("reserved_1", PNone); ("pr_type", PNone); ("scope", PNone); ("obsolete_2", PNone)]) /\
  yields (pr_in 1 21) (Some (zeros 21)) = Err EInstruct.
Proof. vm_compute. auto. Qed.

(** ** C47: RESERVE(10), RELEASE(10) *)

Theorem C47_reserve10 : forall id,
  tells (do o <- reserve10 id; request o) (id < 2 ^ 64) (third_party_data id) (third_party_op OpReserve10 id).
Proof. exact reserve10_spec. Qed.
Theorem C47_release10 : forall id,
  tells (do o <- release10 id; request o) (id < 2 ^ 64) (third_party_data id) (third_party_op OpRelease10 id).
Proof. exact release10_spec. Qed.
Theorem C47_distinct : forall a b k, 0 <= a -> 0 <= b ->
  (issued (Reserve10 a) = Ok k /\ issued (Reserve10 b) = Ok k) \/
  (issued (Release10 a) = Ok k /\ issued (Release10 b) = Ok k) -> a = b.
Proof. exact third_party_distinct. Qed.
Theorem C47_negative_refuted :
  ~ forall a b k, issued (Reserve10 a) = Ok k -> issued (Reserve10 b) = Ok k -> a = b.
Proof. exact third_party_negative. Qed.
Example C47_example :
  issued (Reserve10 0) = Ok (WriteCmd [86; 0; 0; 0; 0; 0; 0; 0; 0; 0] []) /\
  issued (Reserve10 254) = Ok (WriteCmd [86; 16; 0; 254; 0; 0; 0; 0; 0; 0] []) /\
  issued (Release10 255) = Ok (WriteCmd [87; 18; 0; 0; 0; 0; 0; 0; 8; 0] [0; 0; 0; 0; 0; 0; 0; 255]) /\
  issued (Reserve10 (-5)) = Ok (WriteCmd [86; 0; 0; 0; 0; 0; 0; 0; 0; 0] []).
Proof. vm_compute. repeat split; reflexivity. Qed.

(** ** C48: the remaining commands *)

Theorem C48_test_unit_ready : asks (do o <- test_unit_ready; request o) True 0 OpTestUnitReady.
Proof. exact test_unit_ready_spec. Qed.
Theorem C48_report_luns : forall select alloc allow,
  asks (do o <- report_luns select alloc allow; request o)
    (0 <= select < 2 ^ 8 /\ 0 <= alloc < 2 ^ 32) alloc (OpReportLuns select alloc).
Proof. exact report_luns_spec. Qed.
Theorem C48_rtpg : forall format alloc,
  asks (do o <- rtpg format alloc; request o)
    (0 <= format <= 1 /\ 0 <= alloc < 2 ^ 32) alloc (OpReportTargetPortGroups format alloc).
Proof. exact rtpg_spec. Qed.
Theorem C48_log_sense : forall page subpage alloc kw, only_sets ["sp"; "pc"; "parameter_pointer"] kw ->
  asks (do o <- log_sense page subpage alloc; request (assigned kw o))
    (0 <= page < 2 ^ 6 /\ 0 <= subpage < 2 ^ 8 /\ 0 <= alloc < 2 ^ 16 /\
     settings_fit [("sp", 1); ("pc", 2); ("parameter_pointer", 16)] kw)
    alloc (OpLogSense (setting "sp" kw) page subpage (setting "pc" kw) (setting "parameter_pointer" kw) alloc).
Proof. exact log_sense_spec. Qed.
Theorem C48_receive_copy : forall alloc,
  asks (do o <- receive_copy alloc 0; request o) (0 <= alloc < 2 ^ 32) alloc (OpReceiveCopyParameters alloc).
Proof. exact receive_copy_spec. Qed.
Theorem C48_receive_diagnostic : forall page alloc parse,
  asks (do o <- receive_diagnostic page alloc parse; request o)
    (0 <= page < 2 ^ 8 /\ 0 <= alloc < 2 ^ 16) alloc (OpReceiveDiagnostic 1 page alloc).
Proof. exact receive_diagnostic_spec. Qed.
Theorem C48_inquiry : forall evpd page alloc parse,
  asks (do o <- inquiry evpd page alloc parse; request o)
    (0 <= evpd < 2 ^ 1 /\ 0 <= page < 2 ^ 8 /\ 0 <= alloc < 2 ^ 16) alloc (OpInquiry evpd page alloc).
Proof. exact inquiry_spec. Qed.
Theorem C48_pr_in : forall sa alloc,
  asks (do o <- pr_in sa alloc; request o) (0 <= sa < 2 ^ 5 /\ 8 <= alloc < 2 ^ 16) alloc (OpPrIn sa alloc).
Proof. exact pr_in_spec. Qed.
Theorem C48_reserve6 : tells (do o <- reserve6; request o) True [] OpReserve6.
Proof. exact reserve6_spec. Qed.
Theorem C48_release6 : tells (do o <- release6; request o) True [] OpRelease6.
Proof. exact release6_spec. Qed.
Example C48_example :
  issued TestUnitReady = Ok (ReadCmd [0; 0; 0; 0; 0; 0] 0) /\
  issued (ReportLuns 2 16384 false) = Ok (ReadCmd [160; 0; 2; 0; 0; 0; 0; 0; 64; 0; 0; 0] 16384) /\
  issued (Rtpg 1 1024) = Ok (ReadCmd [163; 42; 0; 0; 0; 0; 0; 0; 4; 0; 0; 0] 1024) /\
  issued (LogSense 13 0 512 [("pc", 1)]) = Ok (ReadCmd [77; 0; 77; 0; 0; 0; 0; 2; 0; 0] 512) /\
  issued (ReceiveCopy 1024) = Ok (ReadCmd [132; 3; 0; 0; 0; 0; 0; 0; 0; 0; 0; 0; 4; 0; 0; 0] 1024) /\
  issued (ReceiveDiagnostic 2 1000 (fun _ => Ok PNone)) = Ok (ReadCmd [28; 1; 2; 3; 232; 0] 1000) /\
  issued (Inquiry 1 131 252 (fun _ => Ok PNone)) = Ok (ReadCmd [18; 1; 131; 0; 252; 0] 252) /\
  issued (PrIn 3 520) = Ok (ReadCmd [94; 3; 0; 0; 0; 0; 0; 2; 8; 0] 520) /\
  issued Reserve6 = Ok (WriteCmd [22; 0; 0; 0; 0; 0] []) /\ issued Release6 = Ok (WriteCmd [23; 0; 0; 0; 0; 0] []).
Proof. vm_compute. repeat split; reflexivity. Qed.

(** ** C60: REPORT TARGET PORT GROUPS *)

Theorem C60_length_only : forall alloc groups rest,
  Forall (fun g => group_ok g /\ g_status g < 128 /\ zlen (g_ports g) < 128) groups ->
  zlen (flat_map group_data groups) < 2 ^ 31 -> bytes_ok rest ->
  yields (rtpg 0 alloc) (Some (length_only_data groups ++ rest)%list) =
  Ok (groups_object "TargetPortGroupLengthOnlyResponse"
        [("data_length", PInt (zlen (flat_map group_data groups)))] groups).
Proof. exact rtpg_length_only_spec. Qed.
(** With the extended header nothing right comes out: either an exception, or a list whose
    first entry is made of the bytes one position too early. *)
Theorem C60_extended : forall alloc t g groups rest,
  Forall group_ok (g :: groups) -> 0 <= t < 256 ->
  zlen (flat_map group_data (g :: groups)) + 4 < 2 ^ 31 -> bytes_ok rest ->
  match yields (rtpg 1 alloc) (Some (extended_data t (g :: groups) ++ rest)%list) with
  | Ok v => exists n more, v = PObj "TargetPortGroupExtendedResponse"
              [("data_length", PInt n); ("format_type", PInt 1);
               ("descriptor_list", PList (group_object (misread g) :: more))]
  | Err _ => True
  end.
Proof. exact rtpg_extended_spec. Qed.
(** Exactly: the list, or the exception, is that of a length-only response whose descriptors are the last byte of
    the header, the descriptors, and the first three bytes of what the system left behind them. *)
Theorem C60_extended_shifted : forall alloc t groups rest, Forall group_ok groups -> 0 <= t < 256 ->
  zlen (flat_map group_data groups) + 4 < 2 ^ 31 -> bytes_ok rest ->
  let shifted := (0 :: flat_map group_data groups ++ firstn 3 rest)%list in
  descriptors_in (yields (rtpg 1 alloc) (Some (extended_data t groups ++ rest)%list)) =
  descriptors_in (yields (rtpg 0 alloc) (Some (be_bytes 4 (zlen shifted) ++ shifted)%list)).
Proof. exact rtpg_extended_shift. Qed.
(** A group with 128 ports or more: it is shown without ports and with a negative number of them, and its ports are
    read as if they were groups. *)
Theorem C60_many_ports : forall alloc before g after,
  Forall (fun g => group_ok g /\ g_status g < 128 /\ zlen (g_ports g) < 128) before ->
  group_ok g -> g_status g < 128 -> 128 <= zlen (g_ports g) -> Forall group_ok after ->
  zlen (flat_map group_data (before ++ g :: after)) < 2 ^ 31 ->
  let ports := (flat_map port_data (g_ports g) ++ flat_map group_data after)%list in
  descriptors_in (yields (rtpg 0 alloc) (Some (length_only_data (before ++ g :: after)))) =
  match descriptors_in (yields (rtpg 0 alloc) (Some (be_bytes 4 (zlen ports) ++ ports)%list)) with
  | Ok more => Ok (map group_object before ++ unported g :: more)%list
  | Err e => Err e
  end.
Proof. exact many_ports_read. Qed.
Theorem C60_extended_refuted :
  ~ forall alloc t groups, Forall group_ok groups -> 0 <= t < 256 ->
      exists l, yields (rtpg 1 alloc) (Some (extended_data t groups)) =
        Ok (groups_object "TargetPortGroupExtendedResponse" l groups).
Proof. exact rtpg_extended_refuted. Qed.
Example C60_example :
  let g := PortGroup 1 1 15 258 0 [5; 6] in
  yields (rtpg 0 100) (Some (length_only_data [g; PortGroup 2 0 1 3 1 []])) =
    Ok (groups_object "TargetPortGroupLengthOnlyResponse" [("data_length", PInt 24)] [g; PortGroup 2 0 1 3 1 []]) /\
  (* one group comes out as two others *)
  yields (rtpg 1 100) (Some (extended_data 30 [PortGroup 1 1 15 258 0 [5]] ++ zeros 80)%list) =
    Ok (PObj "TargetPortGroupExtendedResponse"
          [("data_length", PInt 16); ("format_type", PInt 1);
           ("descriptor_list", PList [group_object (PortGroup 0 0 129 (256 * 15 + 1) 0 []);
                                      group_object (PortGroup 1 0 0 0 0 [])])]) /\
  yields (rtpg 1 100) (Some (extended_data 30 [g])) = Err EInstruct.
Proof. vm_compute. auto. Qed.
(** 128 ports with the identifiers 256, 512, … are 64 groups more, and the group has none. *)
Example C60_many_ports_example :
  let g := PortGroup 1 1 15 258 0 (map (fun k => 256 * Z.of_nat (Datatypes.S k)) (seq 0 128)) in
  group_ok g /\ zlen (g_ports g) = 128 /\
  exists l, descriptors_in (yields (rtpg 0 1000) (Some (length_only_data [PortGroup 2 0 1 3 1 [7]; g]))) =
    Ok (group_object (PortGroup 2 0 1 3 1 [7]) :: unported g :: l) /\ length l = 64%nat /\
    nth 0 l PNone = group_object (PortGroup 0 0 0 256 0 []).
Proof.
  cbv zeta. split; [|split; [reflexivity|]].
  - unfold group_ok. cbn [g_state g_pref g_supported g_number g_status g_ports]. do 5 (split; [lia|]). split; [vm_compute; reflexivity|].
    apply Forall_forall. intros p I. apply in_map_iff in I. destruct I as (k & <- & I). apply in_seq in I. lia.
  - eexists. vm_compute. repeat split.
Qed.

Print Assumptions C32_read6.
Print Assumptions C32_read10.
Print Assumptions C32_read12.
Print Assumptions C32_read16.
Print Assumptions C33_read_size.
Print Assumptions C33_read6_size.
Print Assumptions C33_read6_256_size.
Print Assumptions C33_read6_size_refuted.
Print Assumptions C34_write6.
Print Assumptions C34_write10.
Print Assumptions C34_write12.
Print Assumptions C34_write16.
Print Assumptions C34_whole_blocks.
Print Assumptions C36_write_same10.
Print Assumptions C36_write_same16.
Print Assumptions C37_compare_and_write.
Print Assumptions C37_wrong_buffer_accepted.
Print Assumptions C38_unmap.
Print Assumptions C39_data_length.
Print Assumptions C39_data_length_refuted.
Print Assumptions C40_request10.
Print Assumptions C40_request16.
Print Assumptions C40_response10.
Print Assumptions C40_response16.
Print Assumptions C41_simple.
Print Assumptions C41_refuses.
Print Assumptions C41_allowed.
Print Assumptions C42_length.
Print Assumptions C42_opcode_split.
Print Assumptions C42_table.
Print Assumptions C43_no_truncation.
Print Assumptions C43_constructor_refuses.
Print Assumptions C43_constructor_accepts.
Print Assumptions C43_execute_refuses.
Print Assumptions C44_basic.
Print Assumptions C44_register_and_move.
Print Assumptions C44_refuses.
Print Assumptions C44_aptpl_refuted.
Print Assumptions C45_read_keys.
Print Assumptions C45_short.
Print Assumptions C46_read_reservation.
Print Assumptions C47_reserve10.
Print Assumptions C47_release10.
Print Assumptions C47_distinct.
Print Assumptions C47_negative_refuted.
Print Assumptions C48_test_unit_ready.
Print Assumptions C48_report_luns.
Print Assumptions C48_rtpg.
Print Assumptions C48_log_sense.
Print Assumptions C48_receive_copy.
Print Assumptions C48_receive_diagnostic.
Print Assumptions C48_inquiry.
Print Assumptions C48_pr_in.
Print Assumptions C48_reserve6.
Print Assumptions C48_release6.
Print Assumptions C60_length_only.
Print Assumptions C60_extended.
Print Assumptions C60_extended_shifted.
Print Assumptions C60_many_ports.
Print Assumptions C60_extended_refuted.
