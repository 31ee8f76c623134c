(** C113: watching an enclosure that may be changed. *)
From Coq Require Import String ZArith List Bool Lia.
From Verif Require Import Base Gen SpecGen Executer OsCommon OsLinux SpecSg SpecDrivers SpecSession Instruct Command Ses SpecDevice SpecCdb SpecExecute
  SpecPortable SpecReserve SpecAdaptive SpecSes SpecEnclosure EnclosureFacts.
Import ListNotations.
Local Open Scope string_scope.
Local Open Scope list_scope.
Local Open Scope Z_scope.

(** The commands are those of get_ses_page. *)
Theorem C113_commands : forall lib conf,
  get_ses_page lib 1 [] = constructed (conf_command (negative_slice lib)) /\
  get_ses_page lib 2 [conf] = constructed (status_command conf) /\
  get_ses_page lib 7 [conf] = constructed (texts_command conf).
Proof. intros lib conf. repeat split. Qed.

(** The configuration is still the same when the second command arrives: the page as it is then. *)
Theorem C113_status : forall T tgt st next, reports_enclosure tgt st next -> forall negative (sys : system T), one_of_four sys ->
  forall t s, idle sys s t -> s_enclosures (st (next t)) = s_enclosures (st t) ->
  exists s', sync_wait_ends (coroutine (os_of sys tgt) (read_status negative)) s s' (shown (Ok (status_object (st (next t))))) /\ idle sys s' (next (next t)).
Proof. exact status_unchanged_run. Qed.
Theorem C113_texts : forall T tgt st next, reports_enclosure tgt st next -> forall negative (sys : system T), one_of_four sys ->
  forall t s, idle sys s t -> s_enclosures (st (next t)) = s_enclosures (st t) ->
  exists s', sync_wait_ends (coroutine (os_of sys tgt) (read_texts negative)) s s' (shown (Ok (texts_object (st (next t))))) /\ idle sys s' (next (next t)).
Proof. exact texts_unchanged_run. Qed.

(** In general: the elements of the page, taken to be of the types of the old configuration.  What that gives: *)
Theorem C113_arranged : forall types elements gs, Forall (fun t => 0 <= t_elements t) types ->
  arranged types elements = Some gs <-> (map g_type gs = types /\ Forall group_complete gs /\ exists more, elements = elements_of gs ++ more).
Proof. exact arranged_spec. Qed.
Theorem C113_changed_status : forall T tgt st next, reports_enclosure tgt st next -> forall negative (sys : system T), one_of_four sys ->
  forall t s, idle sys s t ->
  exists s', sync_wait_ends (coroutine (os_of sys tgt) (read_status negative)) s s' (shown (status_seen (pads sys) (st t) (st (next t)))) /\ idle sys s' (next (next t)).
Proof. exact status_run. Qed.
Theorem C113_changed_texts : forall T tgt st next, reports_enclosure tgt st next -> forall negative (sys : system T), one_of_four sys ->
  forall t s, idle sys s t ->
  exists s', sync_wait_ends (coroutine (os_of sys tgt) (read_texts negative)) s s' (shown (texts_seen (pads sys) (st t) (st (next t)))) /\ idle sys s' (next (next t)).
Proof. exact texts_run. Qed.

(** Pages that are compared with the configuration by their generation codes: the first attempt that was not disturbed gives
    the three pages; if every attempt was, the program says so. *)
Theorem C113_survey : forall T tgt st next, reports_enclosure tgt st next -> forall negative (sys : system T), one_of_four sys ->
  forall e n i t s, idle sys s t -> (i < n)%nat -> counts_changes st next ->
  (forall j, (j < i)%nat -> ~ steady st next (later next (3 * j) t)) -> steady st next (later next (3 * i) t) ->
  exists s', sync_wait_ends (coroutine (os_of sys tgt) (survey negative e n)) s s'
      (shown (Ok (PList [conf_object (st (later next (3 * i) t)); status_object (st (later next (3 * i + 1) t));
                         texts_object (st (later next (3 * i + 2) t))]))) /\
    idle sys s' (later next (3 * i + 3) t).
Proof. exact survey_run. Qed.
Theorem C113_survey_fails : forall T tgt st next, reports_enclosure tgt st next -> forall negative (sys : system T), one_of_four sys ->
  forall e n t s, idle sys s t -> (forall j, (j < n)%nat -> ~ steady st next (later next (3 * j) t)) ->
  exists s', sync_wait_ends (coroutine (os_of sys tgt) (survey negative e n)) s s' (Threw e) /\ idle sys s' (later next (3 * n) t).
Proof. exact survey_fails_run. Qed.

(** ** Examples *)

(** An enclosure with a fan and a temperature sensor; the same with the two in the other order; the same without the fan. *)
Definition box (types : list element_type) : list enclosure :=
  [Enclosure 1 1 0 (repeat 80 8) (repeat 65 8) (repeat 66 16) (repeat 67 4) [] types].
Definition fan : element_type := Type_ 3 1 0 [70].
Definition sensor : element_type := Type_ 4 1 0 [84].
Definition fan_status : group bytes := Group fan [0; 0; 0; 0] [[1; 3; 137; 37]].
Definition sensor_status : group bytes := Group sensor [0; 0; 0; 0] [[1; 0; 52; 8]].
Definition fan_first : enclosure_state := State 1 (box [fan; sensor]) 0 [fan_status; sensor_status] [Group fan [70] [[70; 49]]; Group sensor [] [[84; 49]]].
Definition sensor_first : enclosure_state := State 2 (box [sensor; fan]) 2 [sensor_status; fan_status] [Group sensor [] [[84; 49]]; Group fan [70] [[70; 49]]].
Definition without_fan : enclosure_state := State 3 (box [sensor]) 1 [sensor_status] [Group sensor [] [[84; 49]]].
Lemma box_ok : forall types, Forall type_ok types -> zlen types < 256 -> Forall enclosure_ok (box types).
Proof.
  intros types F L. constructor; [|constructor]. unfold enclosure_ok, text_of_length, is_byte. cbn [e_relative e_processes e_identifier e_logical e_vendor e_product e_revision e_extra e_types].
  repeat split; try lia; try assumption; try (unfold zlen; cbn [length]; lia); repeat constructor; unfold byte_ok; lia.
Qed.
Example C113_readable_example : readable_state fan_first /\ readable_state sensor_first /\ readable_state without_fan.
Proof.
  assert (F : type_ok fan) by (unfold type_ok, is_byte, zlen; cbn; repeat split; try lia; repeat constructor; unfold byte_ok; lia).
  assert (S : type_ok sensor) by (unfold type_ok, is_byte, zlen; cbn; repeat split; try lia; repeat constructor; unfold byte_ok; lia).
  repeat split; try discriminate; try (apply box_ok; [auto|unfold zlen; cbn; lia]); try (vm_compute; congruence);
    repeat constructor; unfold byte_ok, zlen; cbn; try lia.
Qed.
(** A device that goes from one of them to the other with every command, and stays with the last. *)
Definition history (l : list enclosure_state) (t : nat) : enclosure_state := nth t l without_fan.
Definition example_target (l : list enclosure_state) : target nat := fun t cdb _ =>
  (Datatypes.S t, match interpret cdb with
        | Some (OpReceiveDiagnostic 1 code alloc) =>
            match page_of code (history l t) with Some page => good (firstn (Z.to_nat alloc) page) | None => good [] end
        | _ => good []
        end).
Example C113_device_example : forall l, Forall readable_state l -> reports_enclosure (example_target l) (history l) Datatypes.S.
Proof.
  intros l F. split.
  - intro t. unfold history. destruct (Nat.lt_ge_cases t (length l)) as [L|L].
    + rewrite Forall_forall in F. apply F, nth_In, L.
    + rewrite nth_overflow by exact L. apply C113_readable_example.
  - intros t cdb data code alloc page I P. unfold example_target. rewrite I, P. reflexivity.
Qed.
Definition example_linux (t : nat) : executer sgio (linux_world (sg_state nat)) := executer_init 1 (LinuxWorld [] (t, []) None).
Definition nothing : Z -> element := fun _ _ => Err EInstruct.
Definition example_run (l : list enclosure_state) (p : prog) :=
  match sync_wait 400 (coroutine (os_of (linux_system nat 3000) (example_target l)) p) (example_linux 0) with
  | Some (s, out) => Some (out, fst (l_dev (world s)))
  | None => None
  end.
Example C113_idle_example : forall t, idle (linux_system nat 3000) (example_linux t) t.
Proof. intro t. repeat split; cbn; try lia; eauto. Qed.
Example C113_run_example :
  example_run [fan_first; fan_first] (read_status nothing) = Some (shown (Ok (status_object fan_first)), 2%nat) /\
  example_run [fan_first; fan_first] (read_texts nothing) = Some (shown (Ok (texts_object fan_first)), 2%nat) /\
  example_run [fan_first; sensor_first] (read_status nothing) =
    Some (shown (Ok (status_object_with sensor_first [Group fan [0; 0; 0; 0] [[1; 0; 52; 8]]; Group sensor [0; 0; 0; 0] [[1; 3; 137; 37]]])), 2%nat) /\
  example_run [fan_first; sensor_first] (read_texts nothing) =
    Some (shown (Ok (texts_object_with sensor_first [Group fan [] [[84; 49]]; Group sensor [70] [[70; 49]]])), 2%nat) /\
  example_run [fan_first; without_fan] (read_status nothing) =
    Some (shown (Ok (status_object_with without_fan [Group fan [0; 0; 0; 0] [[1; 0; 52; 8]]; Group sensor [0; 0; 0; 0] [[0; 0; 0; 0]]])), 2%nat) /\
  example_run [fan_first; sensor_first; sensor_first; sensor_first; sensor_first; sensor_first] (survey nothing EAttribute 3) =
    Some (shown (Ok (PList [conf_object sensor_first; status_object sensor_first; texts_object sensor_first])), 6%nat) /\
  example_run [fan_first; without_fan; without_fan; sensor_first; fan_first] (survey nothing EAttribute 2) = Some (shown (Err EAttribute), 6%nat).
Proof. vm_compute. repeat split. Qed.
(** On a system with whole buffers, an element that is not there any more is still seen, as one without a status; on the
    others there is an exception. *)
Example C113_phantom_example :
  status_seen true fan_first without_fan =
    Ok (status_object_with without_fan [Group fan [0; 0; 0; 0] [[1; 0; 52; 8]]; Group sensor [0; 0; 0; 0] [[0; 0; 0; 0]]]) /\
  status_seen false fan_first without_fan = Err EInstruct /\
  texts_seen true fan_first without_fan = Ok (texts_object_with without_fan [Group fan [] [[84; 49]]; Group sensor [] [[]]]) /\
  texts_seen false fan_first without_fan = Err EInstruct.
Proof. vm_compute. repeat split. Qed.
Example C113_steady_example :
  let l := [fan_first; sensor_first; sensor_first; sensor_first; sensor_first; sensor_first] in
  ~ steady (history l) Datatypes.S 0%nat /\ steady (history l) Datatypes.S (later Datatypes.S (3 * 1) 0%nat) /\ counts_changes (history l) Datatypes.S.
Proof.
  cbv zeta. split; [intros [A _]; discriminate A|]. split; [split; reflexivity|].
  intros t E. do 6 (destruct t as [|t]; [try discriminate E; try reflexivity|]). destruct t; reflexivity.
Qed.

(** Without the comparison, statuses are those of other elements. *)
Theorem C113_unchecked_refuted : exists old new, readable_state old /\ readable_state new /\ s_generation old <> s_generation new /\
  exists v, v <> status_object new /\
  forall T tgt st next, reports_enclosure tgt st next -> forall negative (sys : system T), one_of_four sys ->
  forall t s, idle sys s t -> st t = old -> st (next t) = new ->
  exists s', sync_wait_ends (coroutine (os_of sys tgt) (read_status negative)) s s' (shown (Ok v)) /\ idle sys s' (next (next t)).
Proof.
  exists fan_first, sensor_first. split; [apply C113_readable_example|]. split; [apply C113_readable_example|]. split; [discriminate|].
  exists (status_object_with sensor_first [Group fan [0; 0; 0; 0] [[1; 0; 52; 8]]; Group sensor [0; 0; 0; 0] [[1; 3; 137; 37]]]).
  split; [vm_compute; discriminate|]. intros T tgt st next D negative sys F t s Hi O N.
  destruct (C113_changed_status T tgt st next D negative sys F t s Hi) as (s' & W & J). exists s'. split; [|exact J].
  rewrite O, N in W. replace (status_seen (pads sys) fan_first sensor_first) with
    (Ok (status_object_with sensor_first [Group fan [0; 0; 0; 0] [[1; 0; 52; 8]]; Group sensor [0; 0; 0; 0] [[1; 3; 137; 37]]])) in W; [exact W|].
  destruct (pads sys); vm_compute; reflexivity.
Qed.

(** All theorems at once: what is printed holds for each of them. *)
Definition all_theorems := (@C113_commands, @C113_status, @C113_texts, @C113_arranged, @C113_changed_status, @C113_changed_texts, @C113_survey,
  @C113_survey_fails, @C113_unchecked_refuted).
Print Assumptions all_theorems.
