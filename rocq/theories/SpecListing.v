(** Listing the registrations, the reservation and the logical units of a device while other hosts change them.  Models no
    code of /repo; the programs are ones that a user would write. *)
From Coq Require Import String ZArith List Bool.
From Verif Require Import Base OsCommon Instruct Command CdbPrimary SpecDevice SpecCdb SpecSg SpecDrivers SpecExecute SpecReserve SpecAdaptive SpecAlua.
Import ListNotations.
Local Open Scope string_scope.
Local Open Scope list_scope.
Local Open Scope Z_scope.

(** * The device *)

(** The registrations and the reservation after these actions of these hosts. *)
Fixpoint after (actions : list (nat * pr_action)) (st : pr_state) : pr_state :=
  match actions with [] => st | (h, a) :: r => after r (fst (pr_step h a st)) end.
(** A device that answers READ KEYS and READ RESERVATION with what holds at the time, cut at the allocation length.  Between
    a command in state [t] and the next one, in state [next t], other hosts have done what [between t] says. *)
Record watched {T} (tgt : target T) (view : T -> pr_state) (between : T -> list (nat * pr_action)) (next : T -> T) : Prop := Watched {
  w_ok : forall t, pr_ok (view t) /\ 8 * zlen (registered (view t)) < 2 ^ 32;
  w_next : forall t, view (next t) = after (between t) (view t);
  w_keys : forall t cdb data alloc, interpret cdb = Some (OpPrIn 0 alloc) ->
    tgt t cdb data = (next t, good (firstn (Z.to_nat alloc) (keys_data (generation (view t)) (map snd (registered (view t))))));
  w_reservation : forall t cdb data alloc, interpret cdb = Some (OpPrIn 1 alloc) ->
    tgt t cdb data = (next t, good (firstn (Z.to_nat alloc) (reservation_data (view t))))
}.
(** The same for REPORT LUNS. *)
Record lists_luns {T} (tgt : target T) (luns : T -> list Z) (next : T -> T) : Prop := ListsLuns {
  ll_range : forall t, Forall (fun x => 0 <= x < 2 ^ 64) (luns t) /\ zlen (luns t) < 2 ^ 29 - 1;
  ll_answer : forall t cdb data select alloc, interpret cdb = Some (OpReportLuns select alloc) ->
    tgt t cdb data = (next t, good (firstn (Z.to_nat alloc) (luns_data (luns t))))
}.
(** The state after [k] more commands. *)
Fixpoint moment {T} (next : T -> T) (k : nat) (t : T) : T := match k with O => t | Datatypes.S m => moment next m (next t) end.

(** * The programs *)

(** The keys, asked for again with the length that is needed as long as they did not fit; [e] after so many attempts. *)
Fixpoint list_keys (e : exn) (attempts : nat) (len : Z) : prog :=
  match attempts with
  | O => Fail e
  | Datatypes.S m =>
    Do (PrIn 0 len) (fun r =>
      match r with
      | Err x => Fail x
      | Ok v =>
        match required_allocation_length v with
        | Err x => Fail x
        | Ok n => if n <=? len then Return v else list_keys e m n
        end
      end)
  end.
(** The keys and the reservation, one after the other. *)
Definition keys_and_reservation : prog :=
  Do (PrIn 0 65535) (fun r =>
    match r with
    | Err x => Fail x
    | Ok keys => Do (PrIn 1 24) (fun r => match r with Err x => Fail x | Ok held => Return (PList [keys; held]) end)
    end).
(** a.pr_generation == b.pr_generation *)
Definition same_pr_generation (a b : pyval) : bool :=
  match attribute_of "pr_generation" a, attribute_of "pr_generation" b with
  | Some (PInt x), Some (PInt y) => x =? y
  | _, _ => false
  end.
(** The same, again and again until both are of the same generation. *)
Fixpoint snapshot (e : exn) (attempts : nat) : prog :=
  match attempts with
  | O => Fail e
  | Datatypes.S m =>
    Call keys_and_reservation (fun r =>
      match r with
      | Ok (PList [keys; held]) => if same_pr_generation keys held then Return (PList [keys; held]) else snapshot e m
      | Ok _ => Fail e
      | Err x => Fail x
      end)
  end.
(** The logical units as in SpecAdaptive.v, and again if that failed. *)
Fixpoint list_luns (e : exn) (attempts : nat) (select : Z) : prog :=
  match attempts with
  | O => Fail e
  | Datatypes.S m => Call (fetch_luns select true) (fun r => match r with Ok v => Return v | Err _ => list_luns e m select end)
  end.

(** * What they should see *)

(** The allocation length that all keys need; the response with all keys. *)
Definition room (st : pr_state) : Z := 8 + 8 * zlen (registered st).
Definition whole_keys (st : pr_state) : pyval :=
  keys_object (generation st) (zlen (registered st)) (PList (map (fun p => PInt (snd p)) (registered st))).
(** The response when the keys do not fit: their number, but not one of them. *)
Definition no_keys (st : pr_state) : pyval := keys_object (generation st) (zlen (registered st)) PNone.
(** The allocation length of attempt [i]. *)
Definition asked {T} (view : T -> pr_state) (next : T -> T) (first : Z) (t : T) (i : nat) : Z :=
  match i with O => first | Datatypes.S j => room (view (moment next j t)) end.
(** Who holds the reservation is registered. *)
Definition consistent (st : pr_state) : Prop :=
  match held st with
  | None => True
  | Some (h, ty) => if all_registrants ty then registered st <> [] else is_registered h st = true
  end.
Definition all_luns_shown (luns : list Z) : pyval := luns_object luns (map (fun x => x / 2 ^ 48) luns).
