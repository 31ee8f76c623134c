(** Watching an enclosure: coroutines that read the configuration page and then, with it, the pages that cannot be read
    without it, from a device that may be changed in between.  Models no code of /repo; the programs are ones that a user
    would write. *)
From Coq Require Import String ZArith List Bool.
From Verif Require Import Base OsCommon Instruct Command Ses SpecDevice SpecCdb SpecSg SpecDrivers SpecExecute SpecAdaptive SpecAlua SpecSes.
Import ListNotations.
Local Open Scope string_scope.
Local Open Scope list_scope.
Local Open Scope Z_scope.

(** * The device *)

(** What an enclosure holds at some time: the generation code of its configuration, the configuration, the flags and the
    elements of the status page, and the texts of the elements. *)
Record enclosure_state := State { s_generation : Z; s_enclosures : list enclosure; s_flags : Z;
                                  s_status : list (group bytes); s_texts : list (group bytes) }.
Definition types_of (st : enclosure_state) : list element_type := all_types (s_enclosures st).
(** Elements type by type as the configuration says, each of them [fine]. *)
Definition as_configured (fine : bytes -> Prop) (st : enclosure_state) (gs : list (group bytes)) : Prop :=
  map g_type gs = types_of st /\ Forall (fun g => group_complete g /\ Forall fine (g_overall g :: g_elements g)) gs.
(** No count is above 127 and no text is too long to be read (C55, C56), and each page fits into 65535 bytes. *)
Record readable_state (st : enclosure_state) : Prop := Readable {
  r_enclosures : Forall enclosure_ok (s_enclosures st) /\ s_enclosures st <> [] /\ (length (s_enclosures st) <= 128)%nat;
  r_counts : Forall (fun e => zlen (e_types e) < 128) (s_enclosures st) /\
             Forall (fun t => zlen (t_text t) < 128 /\ t_elements t < 128) (types_of st);
  r_numbers : 0 <= s_generation st < 2 ^ 32 /\ is_byte (s_flags st);
  r_status : as_configured (text_of_length 4) st (s_status st);
  r_texts : as_configured (fun t => bytes_ok t /\ zlen t < 32768) st (s_texts st);
  r_sizes : 8 + zlen (configuration_body (s_enclosures st)) <= 65535 /\ 8 + zlen (status_body (s_status st)) <= 65535 /\
            8 + zlen (descriptor_body (s_texts st)) <= 65535
}.
Definition page_of (code : Z) (st : enclosure_state) : option bytes :=
  if code =? 1 then Some (configuration_page (s_generation st) (s_enclosures st))
  else if code =? 2 then Some (status_page (s_flags st) (s_generation st) (s_status st))
  else if code =? 7 then Some (descriptor_page (s_generation st) (s_texts st)) else None.
(** A device that answers RECEIVE DIAGNOSTIC RESULTS with the page as it is at the time, cut at the allocation length.
    Between two commands anything may happen to it: [next]. *)
Record reports_enclosure {T} (tgt : target T) (st : T -> enclosure_state) (next : T -> T) : Prop := ReportsEnclosure {
  re_readable : forall t, readable_state (st t);
  re_answer : forall t cdb data code alloc page, interpret cdb = Some (OpReceiveDiagnostic 1 code alloc) -> page_of code (st t) = Some page ->
    tgt t cdb data = (next t, good (firstn (Z.to_nat alloc) page))
}.

(** * The programs *)

Section Programs.
Context (negative : Z -> element).

(** The commands that get_ses_page gives (C61). *)
Definition conf_command : command := ReceiveDiagnostic 1 65535 (configuration negative).
Definition status_command (conf : pyval) : command := ReceiveDiagnostic 2 65535 (enclosure_status conf).
Definition texts_command (conf : pyval) : command := ReceiveDiagnostic 7 65535 (element_descriptors conf).

(** conf = yield get_ses_page(1)().execute(executer)
    yield get_ses_page(2)(conf).execute(executer) *)
Definition read_status : prog :=
  Do conf_command (fun r => match r with Ok conf => Do (status_command conf) finish | Err e => Fail e end).
(** The same with page 7. *)
Definition read_texts : prog :=
  Do conf_command (fun r => match r with Ok conf => Do (texts_command conf) finish | Err e => Fail e end).

(** a.generation_code == b.generation_code *)
Definition same_generation (a b : pyval) : bool :=
  match attribute_of "generation_code" a, attribute_of "generation_code" b with
  | Some (PInt x), Some (PInt y) => x =? y
  | _, _ => false
  end.
(** All three pages, again and again until they were all there and are of the same generation; [e] after so many attempts. *)
Fixpoint survey (e : exn) (attempts : nat) : prog :=
  match attempts with
  | O => Fail e
  | Datatypes.S m =>
    Do conf_command (fun r =>
      match r with
      | Err _ => survey e m
      | Ok conf =>
        Do (status_command conf) (fun r1 =>
        Do (texts_command conf) (fun r2 =>
          match r1, r2 with
          | Ok status, Ok texts =>
              if same_generation conf status && same_generation conf texts then Return (PList [conf; status; texts]) else survey e m
          | _, _ => survey e m
          end))
      end)
  end.
End Programs.

(** * What they should see *)

Definition conf_object (st : enclosure_state) : pyval := whole_configuration (s_generation st) (s_enclosures st).
Definition status_object_with (st : enclosure_state) (gs : list (group bytes)) : pyval :=
  status_page_object (s_flags st) (s_generation st) (zlen (status_body (s_status st))) (map status_group_object gs).
Definition status_object (st : enclosure_state) : pyval := status_object_with st (s_status st).
Definition texts_object_with (st : enclosure_state) (gs : list (group bytes)) : pyval :=
  descriptor_page_object (s_generation st) (zlen (descriptor_body (s_texts st))) (map descriptor_group_object gs).
Definition texts_object (st : enclosure_state) : pyval := texts_object_with st (s_texts st).

(** The elements of a page one after the other, and what becomes of them when they are taken to be of these types. *)
Definition elements_of (gs : list (group bytes)) : list bytes := flat_map (fun g => g_overall g :: g_elements g) gs.
Fixpoint arranged (types : list element_type) (elements : list bytes) : option (list (group bytes)) :=
  match types, elements with
  | [], _ => Some []
  | t :: r, overall :: rest =>
      let n := Z.to_nat (t_elements t) in
      if (n <=? length rest)%nat
      then match arranged r (skipn n rest) with Some gs => Some (Group t overall (firstn n rest) :: gs) | None => None end
      else None
  | _ :: _, [] => None
  end.
(** On a system that hands over whole buffers the rest of the 65535 bytes are zeros: so many more elements. *)
Definition more_elements (padded : bool) (zero : bytes) (size : Z) : list bytes :=
  if padded then repeat zero (Z.to_nat ((65527 - size) / 4)) else [].
Definition read_as (object : list (group bytes) -> pyval) (types : list element_type) (elements : list bytes) : result pyval :=
  match arranged types elements with Some gs => Ok (object gs) | None => Err EInstruct end.
(** The status page of [st], the texts of [st], read with the configuration of [old]. *)
Definition status_seen (padded : bool) (old st : enclosure_state) : result pyval :=
  read_as (status_object_with st) (types_of old)
    (elements_of (s_status st) ++ more_elements padded [0; 0; 0; 0] (zlen (status_body (s_status st)))).
Definition texts_seen (padded : bool) (old st : enclosure_state) : result pyval :=
  read_as (texts_object_with st) (types_of old)
    (elements_of (s_texts st) ++ more_elements padded [] (zlen (descriptor_body (s_texts st)))).

(** The state after [k] more commands; three commands in a row with the same generation code. *)
Fixpoint later {T} (next : T -> T) (k : nat) (t : T) : T := match k with O => t | Datatypes.S m => later next m (next t) end.
Definition steady {T} (st : T -> enclosure_state) (next : T -> T) (t : T) : Prop :=
  s_generation (st (next t)) = s_generation (st t) /\ s_generation (st (next (next t))) = s_generation (st t).
(** SES-3 6.1.2: the generation code is changed whenever the configuration is. *)
Definition counts_changes {T} (st : T -> enclosure_state) (next : T -> T) : Prop :=
  forall t, s_generation (st (next t)) = s_generation (st t) -> s_enclosures (st (next t)) = s_enclosures (st t).
