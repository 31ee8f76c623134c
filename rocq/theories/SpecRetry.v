(** Programs that look at the sense data of a failed command and decide whether to send it again. *)
From Coq Require Import String ZArith List Bool.
From Verif Require Import Base OsCommon SpecSg SpecDrivers Instruct Command Sense SpecDevice SpecCdb SpecExecute SpecSense SpecPortable SpecReserve SpecAdaptive.
Import ListNotations.
Local Open Scope string_scope.
Local Open Scope list_scope.
Local Open Scope Z_scope.

(** What the device means (SPC-4, 4.5): sense key, additional sense code and qualifier of sense data
    in fixed and descriptor format; bytes that were not sent are zero. *)
Definition means (sense : bytes) : option (Z * Z * Z) :=
  let code := byte_at 0 sense mod 128 in
  if (code =? 112) || (code =? 113) then Some (byte_at 2 sense mod 16, byte_at 12 sense, byte_at 13 sense)
  else if (code =? 114) || (code =? 115) then Some (byte_at 1 sense mod 16, byte_at 2 sense, byte_at 3 sense)
  else None.

(** What the except clause reads: e.sense_obj.sense_key, e.sense_obj.additional_sense_code.code and
    .qualifier; [b] is e.sense_buffer, of which e.sense_obj was made (sense/__init__.py:92-101,
    errors.py:14-19). Attributes of None raise AttributeError. *)
Definition told (b : bytes) : result (string * Z * Z) :=
  match sense_object b with
  | Ok (PObj _ l) =>
    match lookup "sense_key" l, lookup "additional_sense_code.code" l, lookup "additional_sense_code.qualifier" l with
    | Some (PText k), Some (PInt c), Some (PInt q) => Ok (k, c, q)
    | _, _, _ => Err EAttribute
    end
  | Ok _ => Err EAttribute
  | Err e => Err e
  end.

(** Send [c], and again as long as the sense data say so, at most [n] times more. *)
Fixpoint insisting (again : string -> Z -> Z -> bool) (n : nat) (c : command) : prog :=
  Do c (fun r =>
    match r with
    | Err (EAsiCheckCondition b) =>
      match told b with
      | Ok (k, a, q) =>
        match n with
        | Datatypes.S m => if again k a q then insisting again m c else finish r
        | 0%nat => finish r
        end
      | Err e => Fail e
      end
    | _ => finish r
    end).

(** The answer asks to send the command again. *)
Definition asks_again (again : string -> Z -> Z -> bool) (a : answer) : bool :=
  (a_status a =? 2) &&
  match means (a_sense a) with Some (k, c, q) => again (nth (Z.to_nat k) sense_keys "") c q | None => false end.

(** What the device gets: the same command over and over, at most [n] times more than once, while it asks
    for it; [m] is how often it was sent again, and [a] the last answer. *)
Inductive sent {T} (tgt : target T) (k : scsi_command) (again : string -> Z -> Z -> bool) : nat -> nat -> T -> T -> answer -> Prop :=
| sent_last : forall n t t' a, tgt t (command_of k) (data_out k) = (t', a) -> ordinary a ->
    n = 0%nat \/ asks_again again a = false -> sent tgt k again n 0 t t' a
| sent_again : forall n m t t1 a1 t' a, tgt t (command_of k) (data_out k) = (t1, a1) -> ordinary a1 -> asks_again again a1 = true ->
    sent tgt k again n m t1 t' a -> sent tgt k again (Datatypes.S n) (Datatypes.S m) t t' a.

(** What the program ends with after the last answer: as a single command would, except that sense
    data without a sense object make the except clause fail. *)
Definition ends (padded : bool) (c : command) (k : scsi_command) (a : answer) : result pyval :=
  if (a_status a =? 2) && match means (a_sense a) with None => true | Some _ => false end then Err EAttribute
  else seen padded c k a.

(** The parser of the response, if it is the user's, does not raise AsiCheckConditionError. *)
Definition honest (c : command) : Prop :=
  match c with
  | Inquiry _ _ _ parse | ReceiveDiagnostic _ _ parse => forall d b, parse d <> Err (EAsiCheckCondition b)
  | _ => True
  end.

(** A device that can be talked to: it answers the command always, and with an ordinary status. *)
Definition answers {T} (tgt : target T) (k : scsi_command) : Prop :=
  forall t, ordinary (snd (tgt t (command_of k) (data_out k))).
