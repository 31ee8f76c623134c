(** Properties C57 to C59: sense data. *)
From Coq Require Import String ZArith List Bool Lia.
From Verif Require Import Base OsCommon Instruct SpecSg SpecDevice AscTable Sense SpecSense SpecExecute SenseFacts.
Import ListNotations.
Local Open Scope string_scope.
Local Open Scope Z_scope.

(** ** C57: key, ASC and ASCQ come from the right bytes *)

(** Response codes 70h and 71h: fixed format; a buffer shorter than 17 bytes is refused. *)
Theorem C57_fixed : forall b, bytes_ok b -> b <> [] -> (bf 0 0 7 b = 112 \/ bf 0 0 7 b = 113) ->
  sense_object b = if 17 <=? zlen b then Ok (fixed_sense_object b) else Err EInstruct.
Proof. exact sense_fixed_format. Qed.

Example C57_fixed_example :
  sense_object [240; 0; 6; 0; 0; 0; 9; 10; 0; 0; 0; 0; 41; 4; 0; 128; 0; 0; 77] =
  Ok (PObj "SCSISenseDataFixed"
        [("response_code.code", PInt 112); ("response_code.valid", PInt 1); ("sense_key", PText "UNIT_ATTENTION");
         ("ili", PInt 0); ("eom", PInt 0); ("filemark", PInt 0); ("information", PInt 9);
         ("additional_sense_length", PInt 10); ("command_specific_information", PInt 0);
         ("additional_sense_code.code", PInt 41); ("additional_sense_code.qualifier", PInt 4);
         ("field_replaceable_unit_code", PInt 0); ("sense_key_specific_high", PInt 0); ("sksv", PInt 1);
         ("sense_key_specific_low", PInt 0)]).
Proof. reflexivity. Qed.

(** Response codes 72h and 73h: whatever object results, its key, ASC and ASCQ are right. *)
Theorem C57_descriptor : forall b p, bytes_ok b -> (bf 0 0 7 b = 114 \/ bf 0 0 7 b = 115) -> sense_object b = Ok p ->
  exists ds, p = descriptor_sense_object b ds.
Proof. exact sense_descriptor_format. Qed.

Example C57_descriptor_example :
  sense_object [114; 5; 36; 0; 0; 0; 3; 1; 1; 7] =
  Ok (descriptor_sense_object [114; 5; 36; 0; 0; 0; 3; 1; 1; 7]
        [PObj "SCSISenseDataGenericDescriptor" [("descriptor_type", PInt 1); ("data", PBytes [7])]]).
Proof. reflexivity. Qed.

(** Every other response code: no sense object. *)
Theorem C57_other : forall b, bytes_ok b -> b <> [] ->
  bf 0 0 7 b <> 112 -> bf 0 0 7 b <> 113 -> bf 0 0 7 b <> 114 -> bf 0 0 7 b <> 115 -> sense_object b = Ok PNone.
Proof. exact sense_other_format. Qed.

Example C57_other_example : sense_object [127; 1; 2] = Ok PNone /\ bf 0 0 7 [127; 1; 2] = 127.
Proof. split; reflexivity. Qed.

(** Sense data of a conforming device, of any length, always parses once it is in the
    255-byte buffer of the operating system layers: the hypothesis on answers under which
    C62 and C35 were proved for Linux holds with the parser of the library. *)
Theorem C57_conforming_parses : forall a, conforming_sense (a_sense a) -> linux_answer parse_sense a.
Proof. exact conforming_answer. Qed.

Example C57_conforming_example :
  conforming_sense [114; 6; 41; 0; 0; 0; 0; 12; 0; 10; 128; 0; 0; 0; 0; 0; 0; 0; 0; 9].
Proof.
  split; [|reflexivity]. repeat (constructor; [unfold byte_ok; lia|]). constructor.
Qed.

(** ** C58: descriptor format sense: the descriptor list is read from the wrong byte *)

(** Whatever descriptors a device sends, the list is empty. *)
Theorem C58_descriptors_lost : forall code key asc ascq ovfl ds rest,
  (code = 114 \/ code = 115) -> 0 <= key < 16 -> byte_ok asc -> byte_ok ascq -> (ovfl = 0 \/ ovfl = 1) ->
  Forall bytes_ok ds -> zlen (concat ds) < 256 -> bytes_ok rest ->
  sense_object (descriptor_sense_data code key asc ascq ovfl ds ++ rest)%list =
  Ok (PObj "SCSISenseDataDescriptorBased"
        [("response_code.code", PInt code); ("response_code.valid", PInt 0); ("sense_key", sense_key_text key);
         ("additional_sense_code.code", PInt asc); ("additional_sense_code.qualifier", PInt ascq);
         ("descriptors", PList [])]).
Proof. exact descriptor_data_read. Qed.

Example C58_example :
  descriptor_sense_data 114 5 36 0 0 [[0; 10; 128; 0; 0; 0; 0; 0; 0; 0; 0; 9]; [1; 2; 3; 4]] =
  [114; 5; 36; 0; 0; 0; 0; 16; 0; 10; 128; 0; 0; 0; 0; 0; 0; 0; 0; 9; 1; 2; 3; 4].
Proof. reflexivity. Qed.

(** It is not true that the result has as many descriptors as were sent. *)
Theorem C58_descriptors_refuted :
  ~ (forall ds p l, sense_object (descriptor_sense_data 114 5 36 0 0 ds) = Ok p ->
       (exists n a, p = PObj n (a ++ [("descriptors", PList l)])%list) -> length l = length ds).
Proof. exact descriptors_refuted. Qed.

(** ** C59: ASC/ASCQ names *)

(** Every row of the table is reachable. *)
Theorem C59_table : forall c q t, In (c, q, t) asc_table -> code_name c q = t.
Proof. exact table_name. Qed.

Example C59_table_example : In (41, 4, "DEVICE INTERNAL RESET") asc_table /\ code_name 41 4 = "DEVICE INTERNAL RESET".
Proof. split; [apply mem_in|]; vm_compute; reflexivity. Qed.

(** The three ranges show their qualifier. *)
Theorem C59_ranges : forall c q, 0 <= c < 256 -> 0 <= q < 256 -> ranged c q = true -> code_name c q = ranged_text c q.
Proof. exact ranged_name. Qed.

Example C59_ranges_example :
  code_name 64 200 = "DIAGNOSTIC FAILURE ON COMPONENT C8" /\ code_name 77 10 = "TAGGED OVERLAPPED COMMANDS ( A = TASK TAG)".
Proof. split; vm_compute; reflexivity. Qed.

(** Different qualifiers of one code have different texts. *)
Theorem C59_ranges_differ : forall c q q', 0 <= q < 256 -> 0 <= q' < 256 -> ranged c q = true -> ranged c q' = true ->
  0 <= c < 256 -> code_name c q = code_name c q' -> q = q'.
Proof. exact ranged_differ. Qed.

(** Every other pair is shown as unknown, with its numbers; qualifier FFh of the three
    codes is one of these, although the standard's ranges include it. *)
Theorem C59_unknown : forall c q, 0 <= q -> (forall t, ~ In (c, q, t) asc_table) -> ranged c q = false ->
  code_name c q = "Unknown code, qualifier: " ++ decimal c ++ ", " ++ decimal q.
Proof. exact unknown_name. Qed.

Theorem C59_last_qualifier : forall c, In c [64; 77; 112] ->
  code_name c 255 = "Unknown code, qualifier: " ++ decimal c ++ ", 255".
Proof. exact last_qualifier. Qed.

Example C59_unknown_example : code_name 77 255 = "Unknown code, qualifier: 77, 255" /\ code_name 5 1 = "Unknown code, qualifier: 5, 1".
Proof. split; vm_compute; reflexivity. Qed.

Print Assumptions C57_fixed.
Print Assumptions C57_descriptor.
Print Assumptions C57_other.
Print Assumptions C57_conforming_parses.
Print Assumptions C58_descriptors_lost.
Print Assumptions C58_descriptors_refuted.
Print Assumptions C59_table.
Print Assumptions C59_ranges.
Print Assumptions C59_ranges_differ.
Print Assumptions C59_unknown.
Print Assumptions C59_last_qualifier.
