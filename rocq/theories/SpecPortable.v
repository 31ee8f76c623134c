(** Programs that do not depend on the operating system: commands that every system can carry, a device
    that answers with GOOD and all the data asked for, or with CHECK CONDITION and sense data, and the
    results that the user should see. *)
From Coq Require Import String ZArith List Bool.
From Verif Require Import Base OsCommon SpecSg Command Instruct SpecSense.
Import ListNotations.
Local Open Scope Z_scope.

(** Less than 4 GiB of data. *)
Definition moderate (c : scsi_command) : Prop :=
  match c with
  | ReadCmd _ n => n < 2 ^ 32
  | WriteCmd _ d => zlen d < 2 ^ 32
  end.

(** The device delivers everything that was asked for. *)
Definition enough (c : scsi_command) (a : answer) : Prop :=
  match c with
  | ReadCmd _ n => n <= zlen (a_data a)
  | WriteCmd _ _ => True
  end.

Definition plain (c : scsi_command) (a : answer) : Prop :=
  a_host a = 0 /\
  ((a_status a = 0 /\ a_driver a = 0 /\ enough c a) \/
   (a_status a = 2 /\ (a_driver a = 0 \/ a_driver a = 8) /\ conforming_sense (a_sense a))).

(** What the class of the command gets to parse. *)
Definition received (c : scsi_command) (a : answer) : option bytes :=
  match c with
  | ReadCmd _ n => if 0 <? n then Some (firstn (Z.to_nat n) (a_data a)) else None
  | WriteCmd _ _ => None
  end.
Definition plain_result (o : cdb_object) (c : scsi_command) (a : answer) : result pyval :=
  if a_status a =? 0 then o_finish o (o_attrs o) (received c a)
  else Err (EAsiCheckCondition (pad 255 (a_sense a))).

(** A program: commands one after the other; what the device gets and what the user sees. *)
Inductive plain_session {T} (tgt : target T) : T -> list (result cdb_object) -> T -> list (result pyval) -> Prop :=
| ps_nil : forall t, plain_session tgt t [] t []
| ps_not_constructed : forall t e objs t' l,
    plain_session tgt t objs t' l -> plain_session tgt t (Err e :: objs) t' (Err e :: l)
| ps_not_packed : forall t o e objs t' l, request o = Err e ->
    plain_session tgt t objs t' l -> plain_session tgt t (Ok o :: objs) t' (Err e :: l)
| ps_done : forall t o c t1 a objs t' l, request o = Ok c -> zlen (command_of c) <= 16 -> moderate c ->
    tgt t (command_of c) (data_out c) = (t1, a) -> plain c a ->
    plain_session tgt t1 objs t' l -> plain_session tgt t (Ok o :: objs) t' (plain_result o c a :: l).
