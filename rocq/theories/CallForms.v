(** How Python binds the arguments of a constructor call to the parameters: arguments by
    position, arguments by keyword, defaults.  Paths relative to src/infi/asi/cdb. *)
From Coq Require Import String ZArith List Bool Arith.
From Verif Require Import Base OsCommon Instruct Command CdbBlock CdbPrimary Pages Defaults.
Import ListNotations.
Local Open Scope string_scope.
Local Open Scope list_scope.
Local Open Scope Z_scope.

(** What is passed: integers, buffers, True and False, lists of ranges. [read.py:28; write.py:29; report_luns.py:49; unmap.py:23] *)
Inductive argument : Type := AInt (z : Z) | ABytes (b : bytes) | ABool (b : bool) | ARanges (l : list (Z * Z)).

(** The classes whose constructors take arguments with defaults, except those that take any
    keyword (reserve.py, release.py, persist). [the lines cited at [signature]] [read.py:28] *)
Inductive class_name : Type :=
| CRead6 | CRead10 | CRead12 | CRead16 | CWrite6 | CWrite10 | CWrite12 | CWrite16
| CWriteSame10 | CWriteSame16 | CCompareAndWrite | CUnmap | CReadCapacity10 | CReadCapacity16
| CReportLuns | CRtpg | CLogSense | CStandardInquiry.

(** The parameter lists after self: names, and values after the equals sign.
    [read.py:28, 66, 98, 132; write.py:29, 71, 105, 139; write_same.py:34, 67; compare_and_write.py:35; unmap.py:23;
     read_capacity.py:26, 60; report_luns.py:49; rtpg.py:51; log_sense.py:18; inquiry/standard.py:92] *)
Definition signature (c : class_name) : list (string * option argument) :=
  match c with
  | CRead6 | CRead10 | CRead12 | CRead16 =>
      [("logical_block_address", None); ("transfer_length", None); ("block_size", Some (AInt DEFAULT_BLOCK_SIZE))]
  | CWrite6 | CWrite10 | CWrite12 | CWrite16 =>
      [("logical_block_address", None); ("buffer", None); ("block_size", Some (AInt DEFAULT_BLOCK_SIZE))]
  | CWriteSame10 | CWriteSame16 =>
      [("logical_block_address", None); ("buffer", None); ("number_of_blocks", Some (AInt 1)); ("block_size", Some (AInt DEFAULT_BLOCK_SIZE))]
  | CCompareAndWrite =>
      [("logical_block_address", None); ("buffer", None); ("number_of_logical_blocks", None); ("block_size", Some (AInt DEFAULT_BLOCK_SIZE))]
  | CUnmap => [("ranges_list", Some (ARanges []))]
  | CReadCapacity10 | CReadCapacity16 => [("logical_block_address", Some (AInt 0)); ("pmi", Some (AInt 0))]
  | CReportLuns =>
      [("select_report", Some (AInt 0)); ("allocation_length", Some (AInt 16384)); ("allow_unsupported_addressing_format", Some (ABool false))]
  | CRtpg => [("parameter_data_format", Some (AInt 0)); ("allocation_length", Some (AInt 16384))]
  | CLogSense => [("page_code", None); ("subpage_code", Some (AInt 0)); ("allocation_length", Some (AInt 396))]
  | CStandardInquiry =>
      [("page_code", Some (AInt 0)); ("evpd", Some (AInt 0)); ("allocation_length", Some (AInt STANDARD_INQUIRY_MINIMAL_DATA_LENGTH))]
  end.

(** The value of a parameter that has not been given by position. (CPython, for the calls of [read.py:28] and the others) *)
Definition bind_one (kw : list (string * argument)) (p : string * option argument) : result argument :=
  match lookup (fst p) kw with
  | Some v => Ok v
  | None => match snd p with Some d => Ok d | None => Err EType end
  end.
(** As above, for the parameters in turn. [read.py:28] *)
Fixpoint bind_rest (kw : list (string * argument)) (l : list (string * option argument)) : result (list argument) :=
  match l with
  | [] => Ok []
  | p :: r => do v <- bind_one kw p; do vs <- bind_rest kw r; Ok (v :: vs)
  end.
(** The binding: TypeError for too many arguments, for keywords that name no parameter or one
    that was given by position, and for missing arguments.  A keyword is not written twice:
    that is a SyntaxError. (CPython, for the calls of [read.py:28] and the others) *)
Definition bind_arguments (ps : list (string * option argument)) (pos : list argument) (kw : list (string * argument)) : result (list argument) :=
  if Nat.ltb (length ps) (length pos) then Err EType
  else
    let rest := skipn (length pos) ps in
    if forallb (fun k => existsb (String.eqb (fst k)) (map fst rest)) kw
    then do vs <- bind_rest kw rest; Ok (pos ++ vs)
    else Err EType.

(** The bodies of the constructors. Values of other kinds are outside the model (EFault).
    [the lines cited at [signature]] [read.py:28-33] *)
Definition run_init (c : class_name) (vs : list argument) : result cdb_object :=
  match c, vs with
  | CRead6, [AInt lba; AInt tl; AInt bs] => read6 lba tl bs
  | CRead10, [AInt lba; AInt tl; AInt bs] => read10 lba tl bs
  | CRead12, [AInt lba; AInt tl; AInt bs] => read12 lba tl bs
  | CRead16, [AInt lba; AInt tl; AInt bs] => read16 lba tl bs
  | CWrite6, [AInt lba; ABytes b; AInt bs] => write6 lba b bs
  | CWrite10, [AInt lba; ABytes b; AInt bs] => write10 lba b bs
  | CWrite12, [AInt lba; ABytes b; AInt bs] => write12 lba b bs
  | CWrite16, [AInt lba; ABytes b; AInt bs] => write16 lba b bs
  | CWriteSame10, [AInt lba; ABytes b; AInt n; AInt bs] => write_same10 lba b n bs
  | CWriteSame16, [AInt lba; ABytes b; AInt n; AInt bs] => write_same16 lba b n bs
  | CCompareAndWrite, [AInt lba; ABytes b; AInt n; AInt bs] => compare_and_write lba b n bs
  | CUnmap, [ARanges l] => unmap l
  | CReadCapacity10, [AInt lba; AInt pmi] => read_capacity10 lba pmi
  | CReadCapacity16, [AInt lba; AInt pmi] => read_capacity16 lba pmi
  | CReportLuns, [AInt s; AInt a; ABool allow] => report_luns s a allow
  | CRtpg, [AInt f; AInt a] => rtpg f a
  | CLogSense, [AInt p; AInt sp; AInt a] => log_sense p sp a
  | CStandardInquiry, [AInt p; AInt e; AInt a] => standard_inquiry_command p e a
  | _, _ => Err EFault
  end.

(** A call of the class with arguments by position and by keyword. [the lines cited at [signature]] [read.py:28] *)
Definition call_class (c : class_name) (pos : list argument) (kw : list (string * argument)) : result cdb_object :=
  do vs <- bind_arguments (signature c) pos kw; run_init c vs.
