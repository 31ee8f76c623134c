(** Specification of command objects made without optional arguments: what they ask of the
    device.  Models no code of /repo. *)
From Coq Require Import String ZArith List Bool.
From Verif Require Import Base OsCommon Instruct Command SpecDevice SpecCdb SpecSg SpecDrivers SpecExecute SpecAdaptive SpecReserve SpecLayout SpecPages Pages SpecVpd Defaults.
Import ListNotations.
Local Open Scope string_scope.
Local Open Scope Z_scope.

(** Blocks are taken to have 512 bytes. *)
Definition blocks_of (buffer : bytes) : Z := zlen buffer / 512.
Definition whole_blocks (buffer : bytes) : Prop := zlen buffer mod 512 = 0.

(** When the command is issued, what it asks for, and how much is transferred. *)
Definition short_asks (c : short_call) (r : result scsi_command) : Prop :=
  match c with
  | SRead6 lba tl =>
      asks r (0 <= lba < 2 ^ 21 /\ 0 <= tl < 2 ^ 8) (if tl =? 0 then 131072 else 512 * tl) (OpRead lba (if tl =? 0 then 256 else tl) no_flags)
  | SRead10 lba tl => asks r (0 <= lba < 2 ^ 32 /\ 0 <= tl < 2 ^ 16) (512 * tl) (OpRead lba tl no_flags)
  | SRead12 lba tl => asks r (0 <= lba < 2 ^ 32 /\ 0 <= tl < 2 ^ 32) (512 * tl) (OpRead lba tl no_flags)
  | SRead16 lba tl => asks r (0 <= lba < 2 ^ 64 /\ 0 <= tl < 2 ^ 32) (512 * tl) (OpRead lba tl no_flags)
  | SWrite6 lba b => tells r (0 <= lba < 2 ^ 21 /\ whole_blocks b /\ 1 <= blocks_of b <= 256) b (OpWrite lba (blocks_of b) no_flags)
  | SWrite10 lba b => tells r (0 <= lba < 2 ^ 32 /\ whole_blocks b /\ blocks_of b < 2 ^ 16) b (OpWrite lba (blocks_of b) no_flags)
  | SWrite12 lba b => tells r (0 <= lba < 2 ^ 32 /\ whole_blocks b /\ 0 < blocks_of b < 2 ^ 32) b (OpWrite lba (blocks_of b) no_flags)
  | SWrite16 lba b => tells r (0 <= lba < 2 ^ 64 /\ whole_blocks b /\ blocks_of b < 2 ^ 32) b (OpWrite lba (blocks_of b) no_flags)
  | SWriteSame10 lba b => tells r (0 <= lba < 2 ^ 32 /\ whole_blocks b) b (OpWriteSame lba 1 0 0 0 0 0)
  | SWriteSame16 lba b => tells r (0 <= lba < 2 ^ 64 /\ whole_blocks b) b (OpWriteSame lba 1 0 0 0 0 0)
  | SCompareAndWrite lba b n =>
      tells r (0 <= lba < 2 ^ 64 /\ 0 <= n < 2 ^ 8 /\ whole_blocks b) b (OpCompareAndWrite lba n no_flags)
  | SUnmap => tells r True [0; 7; 0; 0; 0; 0; 0; 0] (OpUnmap 0 0 8)
  | SReadCapacity10 => asks r True 8 (OpReadCapacity10 0 0)
  | SReadCapacity16 => asks r True 32 (OpReadCapacity16 0 0 32)
  | SReportLuns => asks r True 16384 (OpReportLuns 0 16384)
  | SRtpg => asks r True 16384 (OpReportTargetPortGroups 0 16384)
  | SLogSense page => asks r (0 <= page < 2 ^ 6) 396 (OpLogSense 0 page 0 0 0 396)
  | SStandardInquiry => asks r True 36 (OpInquiry 0 0 36)
  | SReserve10 => tells r True [] (OpReserve10 0 0 0 0)
  | SRelease10 => tells r True [] (OpRelease10 0 0 0 0)
  | SPrIn sa => asks r (0 <= sa < 2 ^ 5) 520 (OpPrIn sa 520)
  | SPrOut sa => (* REGISTER AND MOVE needs a transport id *)
      tells r (0 <= sa <= 8 /\ sa <> 7) (zeros 24) (OpPrOut sa 0 1 24)
  end.

(** The same object with the arguments written out. *)
Definition spelled_out (c : short_call) : command :=
  match c with
  | SRead6 lba tl => Read6 lba tl 512
  | SRead10 lba tl => Read10 lba tl 512 []
  | SRead12 lba tl => Read12 lba tl 512 []
  | SRead16 lba tl => Read16 lba tl 512 []
  | SWrite6 lba b => Write6 lba b 512
  | SWrite10 lba b => Write10 lba b 512 []
  | SWrite12 lba b => Write12 lba b 512 []
  | SWrite16 lba b => Write16 lba b 512 []
  | SWriteSame10 lba b => WriteSame10 lba b 1 512 []
  | SWriteSame16 lba b => WriteSame16 lba b 1 512 []
  | SCompareAndWrite lba b n => CompareAndWrite lba b n 512 []
  | SUnmap => Unmap [] []
  | SReadCapacity10 => ReadCapacity10 0 0
  | SReadCapacity16 => ReadCapacity16 0 0
  | SReportLuns => ReportLuns 0 16384 false
  | SRtpg => Rtpg 0 16384
  | SLogSense page => LogSense page 0 396 []
  | SStandardInquiry => Inquiry 0 0 36 (unpack standard_inquiry_data)
  | SReserve10 => Reserve10 0
  | SRelease10 => Release10 0
  | SPrIn sa => PrIn sa 520
  | SPrOut sa => PrOutBasic sa 0 0 1 []
  end.

(** A coroutine that constructs the object and yields the result of its execution. *)
Definition run_short (c : short_call) : prog := Do (spelled_out c) finish.

(** Reads of [n] blocks from block [lba] on, with each of the four commands. *)
Definition short_read (c : short_call) (lba n : Z) : Prop :=
  match c with
  | SRead6 l tl => l = lba /\ tl = n /\ 1 <= n
  | SRead10 l tl | SRead12 l tl | SRead16 l tl => l = lba /\ tl = n
  | _ => False
  end.
(** A device that answers standard INQUIRY with [data], cut at the allocation length. *)
Definition reports_inquiry {T} (tgt : target T) (data : bytes) : Prop := bytes_ok data /\
  forall t cdb d alloc, interpret cdb = Some (OpInquiry 0 0 alloc) -> exists t', tgt t cdb d = (t', good (firstn (Z.to_nat alloc) data)).
(** What the first 36 bytes tell: everything but the extension, of which only the existence is known. *)
Definition basic_inquiry_object (data : bytes) : pyval :=
  PObj "StandardInquiryDataBuffer"
    (peripheral_value data :: layout_values standard_inquiry_layout data ++
     [("t10_vendor_identification", PBytes (strip (slice 8 16 data)));
      ("product_identification", PBytes (strip (slice 16 32 data)));
      ("product_revision_level", PBytes (strip (slice 32 36 data)));
      ("extended",
        if ub 4 5 data <=? 31 then PNone
        else PObj "StandardInquiryExtendedDataBuffer"
               [("vendor_specific_1", PBytes []); ("ius", PNone); ("qas", PNone); ("clocking", PNone);
                ("version_descriptors", PNone); ("vendor_specific_2", PNone)])])%list.
