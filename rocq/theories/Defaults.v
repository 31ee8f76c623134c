(** Constructor calls that leave out all optional arguments.  Paths relative to src/infi/asi/cdb. *)
From Coq Require Import String ZArith List Bool.
From Verif Require Import Base OsCommon Instruct Command CdbBlock CdbPrimary Pages.
Import ListNotations.
Local Open Scope Z_scope.

(** A call with the required arguments only.
    [read.py:28, 66, 98, 132; write.py:29, 71, 105, 139; write_same.py:34, 67; compare_and_write.py:35; unmap.py:23;
     read_capacity.py:26, 60; report_luns.py:49; rtpg.py:51; log_sense.py:18; inquiry/standard.py:92; reserve.py:51; release.py:49;
     persist/input.py:133; persist/output.py:85] *)
Inductive short_call : Type :=
| SRead6 (lba tl : Z) | SRead10 (lba tl : Z) | SRead12 (lba tl : Z) | SRead16 (lba tl : Z)
| SWrite6 (lba : Z) (buffer : bytes) | SWrite10 (lba : Z) (buffer : bytes)
| SWrite12 (lba : Z) (buffer : bytes) | SWrite16 (lba : Z) (buffer : bytes)
| SWriteSame10 (lba : Z) (buffer : bytes) | SWriteSame16 (lba : Z) (buffer : bytes)
| SCompareAndWrite (lba : Z) (buffer : bytes) (n : Z)
| SUnmap
| SReadCapacity10 | SReadCapacity16
| SReportLuns | SRtpg
| SLogSense (page : Z)
| SStandardInquiry
| SReserve10 | SRelease10
| SPrIn (sa : Z) | SPrOut (sa : Z).

(** DEFAULT_BLOCK_SIZE, read.py:14, write.py:15, write_same.py:13, compare_and_write.py:12. *)
Definition DEFAULT_BLOCK_SIZE : Z := 512.
(** STANDARD_INQUIRY_MINIMAL_DATA_LENGTH, inquiry/standard.py:88. *)
Definition STANDARD_INQUIRY_MINIMAL_DATA_LENGTH : Z := 36.
(** PERSISTENT_RESERVE_OUT_TYPES.WRITE_EXCLUSIVE, persist/output.py:30. *)
Definition WRITE_EXCLUSIVE : Z := 1.

(** The object: each optional argument has the value after the equals sign in the signature.
    [the lines cited above] [read.py:28] *)
Definition construct (c : short_call) : result cdb_object :=
  match c with
  | SRead6 lba tl => read6 lba tl DEFAULT_BLOCK_SIZE
  | SRead10 lba tl => read10 lba tl DEFAULT_BLOCK_SIZE
  | SRead12 lba tl => read12 lba tl DEFAULT_BLOCK_SIZE
  | SRead16 lba tl => read16 lba tl DEFAULT_BLOCK_SIZE
  | SWrite6 lba buffer => write6 lba buffer DEFAULT_BLOCK_SIZE
  | SWrite10 lba buffer => write10 lba buffer DEFAULT_BLOCK_SIZE
  | SWrite12 lba buffer => write12 lba buffer DEFAULT_BLOCK_SIZE
  | SWrite16 lba buffer => write16 lba buffer DEFAULT_BLOCK_SIZE
  | SWriteSame10 lba buffer => write_same10 lba buffer 1 DEFAULT_BLOCK_SIZE
  | SWriteSame16 lba buffer => write_same16 lba buffer 1 DEFAULT_BLOCK_SIZE
  | SCompareAndWrite lba buffer n => compare_and_write lba buffer n DEFAULT_BLOCK_SIZE
  | SUnmap => unmap []
  | SReadCapacity10 => read_capacity10 0 0
  | SReadCapacity16 => read_capacity16 0 0
  | SReportLuns => report_luns 0 16384 false
  | SRtpg => rtpg 0 16384
  | SLogSense page => log_sense page 0 396
  | SStandardInquiry => standard_inquiry_command 0 0 STANDARD_INQUIRY_MINIMAL_DATA_LENGTH
  | SReserve10 => reserve10 0
  | SRelease10 => release10 0
  | SPrIn sa => pr_in sa 520
  | SPrOut sa => pr_out sa 0 0 WRITE_EXCLUSIVE [] None
  end.
