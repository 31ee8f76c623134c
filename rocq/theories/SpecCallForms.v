(** Specification of constructor calls with arguments by position and by keyword.  Models no
    code of /repo. *)
From Coq Require Import String ZArith List Bool.
From Verif Require Import Base OsCommon Instruct Command Pages SpecCdb CallForms.
Import ListNotations.
Local Open Scope string_scope.
Local Open Scope list_scope.
Local Open Scope Z_scope.

(** The order of the arguments that are given by position. *)
Definition order (c : class_name) : list string :=
  match c with
  | CRead6 | CRead10 | CRead12 | CRead16 => ["logical_block_address"; "transfer_length"; "block_size"]
  | CWrite6 | CWrite10 | CWrite12 | CWrite16 => ["logical_block_address"; "buffer"; "block_size"]
  | CWriteSame10 | CWriteSame16 => ["logical_block_address"; "buffer"; "number_of_blocks"; "block_size"]
  | CCompareAndWrite => ["logical_block_address"; "buffer"; "number_of_logical_blocks"; "block_size"]
  | CUnmap => ["ranges_list"]
  | CReadCapacity10 | CReadCapacity16 => ["logical_block_address"; "pmi"]
  | CReportLuns => ["select_report"; "allocation_length"; "allow_unsupported_addressing_format"]
  | CRtpg => ["parameter_data_format"; "allocation_length"]
  | CLogSense => ["page_code"; "subpage_code"; "allocation_length"]
  | CStandardInquiry => ["page_code"; "evpd"; "allocation_length"]
  end.

(** What may be left out, and what it is then. *)
Definition optional (c : class_name) : list (string * argument) :=
  match c with
  | CRead6 | CRead10 | CRead12 | CRead16 | CWrite6 | CWrite10 | CWrite12 | CWrite16 | CCompareAndWrite => [("block_size", AInt 512)]
  | CWriteSame10 | CWriteSame16 => [("block_size", AInt 512); ("number_of_blocks", AInt 1)]
  | CUnmap => [("ranges_list", ARanges [])]
  | CReadCapacity10 | CReadCapacity16 => [("pmi", AInt 0); ("logical_block_address", AInt 0)]
  | CReportLuns => [("allow_unsupported_addressing_format", ABool false); ("allocation_length", AInt 16384); ("select_report", AInt 0)]
  | CRtpg => [("allocation_length", AInt 16384); ("parameter_data_format", AInt 0)]
  | CLogSense => [("allocation_length", AInt 396); ("subpage_code", AInt 0)]
  | CStandardInquiry => [("allocation_length", AInt 36); ("evpd", AInt 0); ("page_code", AInt 0)]
  end.

(** The parameter [name] has been given by position. *)
Definition by_position (c : class_name) (pos : list argument) (name : string) : Prop :=
  exists i, nth_error (order c) i = Some name /\ (i < length pos)%nat.

(** The call can be understood: there are not too many arguments, every keyword names a
    parameter that has not been given by position, and nothing is missing. *)
Definition understood (c : class_name) (pos : list argument) (kw : list (string * argument)) : Prop :=
  (length pos <= length (order c))%nat /\
  (forall name v, In (name, v) kw -> In name (order c) /\ ~ by_position c pos name) /\
  (forall name, In name (order c) -> by_position c pos name \/ In name (map fst kw) \/ In name (map fst (optional c))).

(** The value [v] of parameter [name]: the argument at its place, the one with its name, or the
    usual one. *)
Inductive stands_for (c : class_name) (pos : list argument) (kw : list (string * argument)) (name : string) (v : argument) : Prop :=
| at_its_place : forall i, nth_error (order c) i = Some name -> nth_error pos i = Some v -> stands_for c pos kw name v
| with_its_name : In (name, v) kw -> stands_for c pos kw name v
| left_out : ~ by_position c pos name -> ~ In name (map fst kw) -> In (name, v) (optional c) -> stands_for c pos kw name v.

(** What kind of value a parameter is to have. *)
Definition of_kind (name : string) (v : argument) : Prop :=
  if String.eqb name "buffer" then exists b, v = ABytes b
  else if String.eqb name "ranges_list" then exists l, v = ARanges l
  else if String.eqb name "allow_unsupported_addressing_format" then exists b, v = ABool b
  else exists z, v = AInt z.

Definition int (v : argument) : Z := match v with AInt z => z | _ => 0 end.
Definition buf (v : argument) : bytes := match v with ABytes b => b | _ => [] end.

(** The command with parameters of these values. *)
Definition command_of (c : class_name) (f : string -> argument) : command :=
  let lba := int (f "logical_block_address") in let bs := int (f "block_size") in let b := buf (f "buffer") in
  let tl := int (f "transfer_length") in let alloc := int (f "allocation_length") in
  match c with
  | CRead6 => Read6 lba tl bs | CRead10 => Read10 lba tl bs [] | CRead12 => Read12 lba tl bs [] | CRead16 => Read16 lba tl bs []
  | CWrite6 => Write6 lba b bs | CWrite10 => Write10 lba b bs [] | CWrite12 => Write12 lba b bs [] | CWrite16 => Write16 lba b bs []
  | CWriteSame10 => WriteSame10 lba b (int (f "number_of_blocks")) bs []
  | CWriteSame16 => WriteSame16 lba b (int (f "number_of_blocks")) bs []
  | CCompareAndWrite => CompareAndWrite lba b (int (f "number_of_logical_blocks")) bs []
  | CUnmap => Unmap (match f "ranges_list" with ARanges l => l | _ => [] end) []
  | CReadCapacity10 => ReadCapacity10 lba (int (f "pmi"))
  | CReadCapacity16 => ReadCapacity16 lba (int (f "pmi"))
  | CReportLuns => ReportLuns (int (f "select_report")) alloc (match f "allow_unsupported_addressing_format" with ABool b => b | _ => false end)
  | CRtpg => Rtpg (int (f "parameter_data_format")) alloc
  | CLogSense => LogSense (int (f "page_code")) (int (f "subpage_code")) alloc []
  | CStandardInquiry => Inquiry (int (f "evpd")) (int (f "page_code")) alloc (unpack standard_inquiry_data)
  end.
