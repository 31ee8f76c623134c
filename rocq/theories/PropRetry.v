(** C101: coroutines that decide by sense data whether to send a command again. *)
From Coq Require Import String ZArith List Bool Lia.
From Verif Require Import Base Gen SpecGen Executer OsCommon OsLinux OsSolaris OsAix OsWin32 SpecSg SpecDrivers SpecSession Instruct Command
  CdbPrimary Sense SpecDevice SpecCdb SpecExecute SpecSense SpecPortable SpecReserve SpecAdaptive SpecRetry RetryFacts.
Import ListNotations.
Local Open Scope string_scope.
Local Open Scope list_scope.
Local Open Scope Z_scope.

(** The sense object of the exception says what the device meant, in both formats and however little of the
    sense data was sent; it is None exactly for other response codes, or no sense data at all. *)
Theorem C101_told : forall s, conforming_sense s ->
  told (pad 255 s) = match means s with Some (k, c, q) => Ok (nth (Z.to_nat k) sense_keys "", c, q) | None => Err EAttribute end.
Proof. exact told_right. Qed.

(** The device gets the command once, and again exactly as long as it asks for it; the caller gets the last answer. *)
Theorem C101_runs : forall T (sys : system T) tgt again c k n m t t' a s, one_of_four sys -> idle sys s t ->
  proper c -> honest c -> issued c = Ok k -> moderate k -> sent tgt k again n m t t' a ->
  exists s', sync_wait_ends (coroutine (os_of sys tgt) (insisting again n c)) s s' (shown (ends (pads sys) c k a)) /\ idle sys s' t'.
Proof. exact (fun T => @insisting_runs T). Qed.
(** This covers every device, and says how often the command is sent. *)
Theorem C101_always : forall T (tgt : target T) again k n t, answers tgt k ->
  exists m t' a, sent tgt k again n m t t' a /\ (m <= n)%nat /\
    forall m2 t2 a2, sent tgt k again n m2 t t2 a2 -> m2 = m /\ t2 = t' /\ a2 = a.
Proof.
  intros T tgt again k n t A. destruct (sent_exists tgt again k n t A) as (m & t' & a & S).
  exists m, t', a. split; [exact S|]. split; [eapply sent_bound; eauto|].
  intros m2 t2 a2 S2. destruct (sent_unique tgt again k n m t t' a m2 t2 a2 S S2) as (-> & -> & ->). auto.
Qed.
(** A device that is done with its unit attentions answers as if there had been none. *)
Theorem C101_succeeds : forall T (sys : system T) tgt again c k n m t t' a s, one_of_four sys -> idle sys s t ->
  proper c -> honest c -> issued c = Ok k -> moderate k -> sent tgt k again n m t t' a -> a_status a = 0 ->
  exists s', sync_wait_ends (coroutine (os_of sys tgt) (insisting again n c)) s s' (shown (seen (pads sys) c k a)) /\ idle sys s' t'.
Proof.
  intros T sys tgt again c k n m t t' a s F Hi P H J M S G.
  destruct (insisting_runs sys tgt again c k n m t t' a s F Hi P H J M S) as (s' & E & I). exists s'.
  split; [|exact I]. unfold ends in E. rewrite G in E. cbn [Z.eqb andb] in E. exact E.
Qed.
(** Without a sense object the except clause itself fails, and the sense data are lost to the caller. *)
Theorem C101_no_sense_refuted : forall T (sys : system T) tgt again c k n t t' a s, one_of_four sys -> idle sys s t ->
  proper c -> honest c -> issued c = Ok k -> moderate k ->
  tgt t (command_of k) (data_out k) = (t', a) -> ordinary a -> a_status a = 2 -> means (a_sense a) = None ->
  exists s', sync_wait_ends (coroutine (os_of sys tgt) (insisting again n c)) s s' (Threw EAttribute) /\ idle sys s' t'.
Proof.
  intros T sys tgt again c k n t t' a s F Hi P H J M E O St N.
  assert (S : sent tgt k again n 0 t t' a).
  { apply sent_last; auto. right. unfold asks_again. rewrite N, andb_false_r. reflexivity. }
  destruct (insisting_runs sys tgt again c k n 0 t t' a s F Hi P H J M S) as (s' & X & I). exists s'.
  split; [|exact I]. unfold ends in X. rewrite St, N in X. exact X.
Qed.

(** ** Examples *)

(** What a program waits for: unit attentions, and a device that is becoming ready (NOT READY, 04h/01h). *)
Definition wait_for_it (k : string) (c q : Z) : bool :=
  String.eqb k "UNIT_ATTENTION" || (String.eqb k "NOT_READY" && (c =? 4) && (q =? 1)).
(** A device that reports a reset in fixed format, cut after 3 bytes, then twice that it is becoming ready, in
    descriptor format, and then does its work; and one that has failed. *)
Definition moody (last : answer) (t : nat) (_ _ : bytes) : nat * answer :=
  (Datatypes.S t,
   match t with
   | 0%nat => Answer 2 0 8 [] [112; 0; 6]
   | 1%nat | 2%nat => Answer 2 0 8 [] [114; 2; 4; 1; 0; 0; 0; 0]
   | _ => last
   end).
Definition works : answer := good [].
Definition failed : answer := Answer 2 0 8 [] [112; 0; 4; 0; 0; 0; 0; 10; 0; 0; 0; 0; 68; 0; 0; 0; 0; 0].
Definition retry_linux : executer sgio (linux_world (sg_state nat)) := executer_init 1 (LinuxWorld [] (0%nat, []) None).
Definition retry_windows : executer spt (win_world nat) := executer_init 1 (WinWorld [] [] 0%nat []).

Example C101_told_example : told (pad 255 [112; 0; 6]) = Ok ("UNIT_ATTENTION", 0, 0) /\
  told (pad 255 [114; 2; 4; 1; 0; 0; 0; 0]) = Ok ("NOT_READY", 4, 1) /\
  told (pad 255 []) = Err EAttribute /\ told (pad 255 [127; 1; 2]) = Err EAttribute.
Proof. vm_compute. auto. Qed.

Lemma moody_ordinary : forall last t cdb data, ordinary last -> ordinary (snd (moody last t cdb data)).
Proof.
  intros last t cdb data O. destruct t as [|[|[|t]]]; cbn [moody snd]; try exact O;
    (split; [reflexivity|]); (split; [|right; left; split; reflexivity]);
    (split; [repeat constructor; unfold byte_ok; lia|]); intro X; try reflexivity; destruct X as [X|X]; vm_compute in X; discriminate X.
Qed.
Lemma works_ordinary : ordinary works.
Proof. split; [reflexivity|]. split; [|left; split; reflexivity]. split; [constructor|reflexivity]. Qed.
Lemma failed_ordinary : ordinary failed.
Proof.
  split; [reflexivity|]. split; [|right; left; split; reflexivity]. split; [repeat constructor; unfold byte_ok; lia|reflexivity].
Qed.
Definition turs : scsi_command := ReadCmd [0; 0; 0; 0; 0; 0] 0.
Example C101_hypotheses_example : proper TestUnitReady /\ honest TestUnitReady /\ issued TestUnitReady = Ok turs /\ moderate turs /\
  answers (moody works) turs /\ answers (moody failed) turs.
Proof.
  split; [exact Logic.I|]. split; [exact Logic.I|]. split; [vm_compute; reflexivity|]. split; [cbn; lia|].
  split; intro t; apply moody_ordinary; [exact works_ordinary|exact failed_ordinary].
Qed.
(** Four commands if five more are allowed, three if two more are. *)
Example C101_sent_example : sent (moody works) turs wait_for_it 5 3 0%nat 4%nat works /\
  sent (moody works) turs wait_for_it 2 2 0%nat 3%nat (Answer 2 0 8 [] [114; 2; 4; 1; 0; 0; 0; 0]) /\
  sent (moody failed) turs wait_for_it 5 3 0%nat 4%nat failed.
Proof.
  pose proof (fun t => moody_ordinary works t (command_of turs) (data_out turs) works_ordinary) as W.
  pose proof (fun t => moody_ordinary failed t (command_of turs) (data_out turs) failed_ordinary) as F.
  split; [|split].
  - do 3 (eapply sent_again; [reflexivity|first [exact (W 0%nat)|exact (W 1%nat)]|reflexivity|]).
    apply sent_last; [reflexivity|exact works_ordinary|right; reflexivity].
  - do 2 (eapply sent_again; [reflexivity|first [exact (W 0%nat)|exact (W 1%nat)]|reflexivity|]).
    apply sent_last; [reflexivity|exact (W 2%nat)|left; reflexivity].
  - do 3 (eapply sent_again; [reflexivity|first [exact (F 0%nat)|exact (F 1%nat)]|reflexivity|]).
    apply sent_last; [reflexivity|exact failed_ordinary|right; reflexivity].
Qed.
Example C101_run_example :
  match sync_wait 200 (coroutine (os_of (linux_system nat 3000) (moody works)) (insisting wait_for_it 5 TestUnitReady)) retry_linux with
  | Some (s, out) => out = shown (Ok (PBool true)) /\ fst (l_dev (world s)) = 4%nat
  | None => False
  end /\
  match sync_wait 200 (coroutine (os_of (win_system nat) (moody failed)) (insisting wait_for_it 5 TestUnitReady)) retry_windows with
  | Some (s, out) => out = Threw (EAsiCheckCondition (pad 255 (a_sense failed)))
  | None => False
  end.
Proof. vm_compute. auto. Qed.
(** No sense data: AttributeError. *)
Example C101_no_sense_example : ordinary (Answer 2 0 8 [] []) /\ means [] = None /\
  match sync_wait 200 (coroutine (os_of (linux_system nat 3000) (fun t _ _ => (Datatypes.S t, Answer 2 0 8 [] []))) (insisting wait_for_it 5 TestUnitReady)) retry_linux with
  | Some (s, out) => out = Threw EAttribute /\ fst (l_dev (world s)) = 1%nat
  | None => False
  end.
Proof.
  split; [|vm_compute; auto]. split; [reflexivity|]. split; [|right; left; split; reflexivity]. split; [constructor|reflexivity].
Qed.

(** All theorems at once: what is printed holds for each of them. *)
Definition all_theorems := (@C101_told, @C101_runs, @C101_always, @C101_succeeds, @C101_no_sense_refuted).
Print Assumptions all_theorems.
