(** C121: several executers over one device file on Linux. *)
From Coq Require Import ZArith List Bool Lia.
From Verif Require Import Base BaseFacts Gen SpecGen GenFacts Executer OsCommon OsLinux SpecSg SpecSession SpecExecute ExampleLinux
  SpecQueue SpecGiveUp SpecOneFile OneFileFacts.
Import ListNotations.
Local Open Scope Z_scope.

(** Any number of executers over one file, any calls in turn, whatever the device does and however long it is silent: what
    each call sees and what the device has executed in the end.  (What should happen is [in_turns].) *)
Theorem C121_programs : forall T A sense_of (tgt : target T), (forall t cdb data, linux_answer sense_of (snd (tgt t cdb data))) ->
  forall es w books script t ops l n books' q, all_at_rest es w books script t ->
  Forall fits (map what ops) -> new_callbacks es ops ->
  in_turns tgt 0 books (Queue script t [] []) ops = Some (l, (n, books', q)) ->
  exists es' w', users_run A sense_of tgt es w ops l es' w' /\ q_target (l_dev w') = q_target q /\
    length (q_accepted (l_dev w')) = length (q_accepted q).
Proof. exact @one_file_programs. Qed.

(** As long as no call fails without an answer, all is as if the commands were executed one after the other. *)
Theorem C121_right : forall T A sense_of (tgt : target T), (forall t cdb data, linux_answer sense_of (snd (tgt t cdb data))) ->
  forall es w books script t ops l n books' q, all_at_rest es w books script t ->
  Forall fits (map what ops) -> new_callbacks es ops ->
  in_turns tgt 0 books (Queue script t [] []) ops = Some (l, (n, books', q)) -> nothing_failed l ->
  exists es' w', users_run A sense_of tgt es w ops l es' w' /\ one_after_another tgt t (map what ops) = (q_target (l_dev w'), l).
Proof. exact @one_file_right. Qed.

(** Not so afterwards: a call is given up, and the program goes on with another executer over the file that has given out as many
    numbers (for example, both are new).  If the answer to the first command comes now, the other executer takes it
    for its own: zeros for a read, or the error of the other command; the device has not executed the second command. *)
Theorem C121_new_executer_refuted : forall T A sense_of (tgt : target T), (forall t cdb data, linux_answer sense_of (snd (tgt t cdb data))) ->
  forall es w books rest t k1 k2 b1 b2 me1 me2 c1 c2,
  all_at_rest es w books (Silence :: Run 0 :: HandOver 0 :: rest) t -> fits c1 -> fits c2 -> new_callbacks es [(k1, me1, c1); (k2, me2, c2)] ->
  k1 <> k2 -> nth_error books k1 = Some b1 -> nth_error books k2 = Some b2 -> b_index b1 = b_index b2 ->
  let (t1, a1) := tgt t (command_of c1) (data_out c1) in
  exists es' w', users_run A sense_of tgt es w [(k1, me1, c1); (k2, me2, c2)]
      [Failed (EIO 0); Answered (linux_expected c2 (without_data a1))] es' w' /\
    q_target (l_dev w') = t1 /\ length (q_accepted (l_dev w')) = 1%nat.
Proof. exact @one_file_thrown_away. Qed.

(** ** Examples *)
Definition counting : target Z := fun t cdb data => (t + 1, Answer 0 0 0 [t; byte_at 0 cdb] []).
Notation an_executer := (executer sgio (linux_world (queue sg_hdr Z))).
Definition file (script : list device_event) : linux_world (queue sg_hdr Z) := LinuxWorld [] (Queue script 1 [] []) None.
(** Two new executers with different timeouts and queue sizes. *)
Definition both : list (Z * an_executer) := [(10000, executer_init 15 (file [])); (30000, executer_init 4 (file []))].
Definition both_books : list book := [Book 0 15 false; Book 0 4 false].
Definition get_two (op : Z) : scsi_command := ReadCmd [op; 0; 0; 0; 2; 0] 2.

(** Running by computation. *)
Definition seen_by {S O} (o : outcome S (dval O)) : option seen :=
  match o with
  | Returned (RVal VNone) => Some (Answered (RespData None))
  | Returned (RVal (VData (DBytes b))) => Some (Answered (RespData (Some b)))
  | Threw e => Some (Failed e)
  | _ => None
  end.
Fixpoint run_users (es : list (Z * an_executer)) (w : linux_world (queue sg_hdr Z)) (ops : list a_call) : option (list seen * Z) :=
  match ops with
  | [] => Some ([], q_target (l_dev w))
  | (k, me, c) :: ops =>
    match nth_error es k with
    | None => None
    | Some (timeout, s) =>
      match sync_wait 100 (call (linux_os (A := unit) any_sense (patient counting) timeout) me c) (with_world s w) with
      | Some (s', r) =>
        match seen_by r, run_users (put k (timeout, s') es) (world s') ops with
        | Some x, Some (l, t) => Some (x :: l, t)
        | _, _ => None
        end
      | None => None
      end
    end
  end.

Lemma resting : forall script, all_at_rest both (file script) both_books script 1.
Proof. intros. split; [|reflexivity]. repeat constructor; cbn; lia. Qed.
Lemma parsable : forall t cdb data, linux_answer any_sense (snd (counting t cdb data)).
Proof. intros t cdb data H. reflexivity. Qed.

(** In turn, every command answered. *)
Definition in_time : list device_event := [Run 0; HandOver 0; Run 0; HandOver 0; Run 0; HandOver 0].
Definition turn_by_turn : list a_call := [(0%nat, 1%nat, get_two 18); (1%nat, 2%nat, get_two 37); (0%nat, 3%nat, get_two 8)].
Example C121_right_hypotheses : new_callbacks both turn_by_turn /\ Forall fits (map what turn_by_turn) /\
  exists st, in_turns counting 0 both_books (Queue in_time 1 [] []) turn_by_turn = Some
    ([Answered (RespData (Some [1; 18])); Answered (RespData (Some [2; 37])); Answered (RespData (Some [3; 8]))], st).
Proof.
  split; [|split; [repeat constructor|]].
  - split; [cbn; repeat constructor; cbn; intuition congruence|]. intros p o [<-|[<-|[]]] Ho []. 
  - eexists. vm_compute. reflexivity.
Qed.
Example C121_right_example : run_users both (file in_time) turn_by_turn =
  Some ([Answered (RespData (Some [1; 18])); Answered (RespData (Some [2; 37])); Answered (RespData (Some [3; 8]))], 4).
Proof. vm_compute. reflexivity. Qed.

(** The first command is given up, and the program goes on with the second executer: zeros for its read, then, for the next one, the
    answer of the command before, with another number: an AttributeError. *)
Definition too_late : list device_event := [Silence; Run 0; HandOver 0; Run 0; Run 0; HandOver 0; HandOver 0].
Definition goes_on : list a_call := [(0%nat, 1%nat, get_two 18); (1%nat, 2%nat, get_two 37); (1%nat, 3%nat, get_two 8)].
Example C121_programs_hypotheses : new_callbacks both goes_on /\ Forall fits (map what goes_on) /\
  exists st, in_turns counting 0 both_books (Queue too_late 1 [] []) goes_on = Some
    ([Failed (EIO 0); Answered (RespData (Some [0; 0])); Failed EAttribute], st).
Proof.
  split; [|split; [repeat constructor|]].
  - split; [cbn; repeat constructor; cbn; intuition congruence|]. intros p o [<-|[<-|[]]] Ho []. 
  - eexists. vm_compute. reflexivity.
Qed.
Example C121_programs_example : run_users both (file too_late) goes_on =
  Some ([Failed (EIO 0); Answered (RespData (Some [0; 0])); Failed EAttribute], 4).
Proof. vm_compute. reflexivity. Qed.

(** With a WRITE for the second: it is reported as done, but has not been executed when the call ends. *)
Definition put_two : scsi_command := WriteCmd [10; 0; 0; 0; 1; 0] [7; 7].
Example C121_new_executer_hypotheses : new_callbacks both [(0%nat, 1%nat, get_two 18); (1%nat, 2%nat, put_two)] /\ fits (get_two 18) /\ fits put_two /\
  nth_error both_books 0 = Some (Book 0 15 false) /\ nth_error both_books 1 = Some (Book 0 4 false).
Proof.
  split; [|repeat split; reflexivity].
  split; [cbn; repeat constructor; cbn; intuition congruence|]. intros p o [<-|[<-|[]]] Ho []. 
Qed.
Example C121_new_executer_example : run_users both (file too_late) [(0%nat, 1%nat, get_two 18); (1%nat, 2%nat, put_two)] =
  Some ([Failed (EIO 0); Answered (RespData None)], 2).
Proof. vm_compute. reflexivity. Qed.

Print Assumptions C121_programs.
Print Assumptions C121_right.
Print Assumptions C121_new_executer_refuted.
