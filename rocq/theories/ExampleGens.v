(** Small generators and an OS layer used only in the Examples beside the theorems.
    They model no code in /repo. *)
From Coq Require Import ZArith List Bool.
From Verif Require Import Base Gen SpecGen Executer SpecCall GenFacts ExecFacts ExecGenFacts ExecStepFacts.
Import ListNotations.
Open Scope Z_scope.

(** A generator that does nothing more: finishes when resumed, lets exceptions out.
    (Models no code.) *)
Definition g_end {S D} : gen S D :=
  Gen (fun i s => match i with Send _ => (s, Stop) | Throw e => (s, Raise e) end).
(** yield v (models no code). *)
Definition g_val {S D} (v : val D) : gen S D :=
  Gen (fun i s => match i with Send _ => (s, Yield (YVal v) g_end) | Throw e => (s, Raise e) end).
(** raise e (models no code). *)
Definition g_raise {S D} (e : exn) : gen S D := Gen (fun _ s => (s, Raise e)).
(** yield g (models no code). *)
Definition g_call {S D} (g k : gen S D) : gen S D :=
  Gen (fun i s => match i with Send _ => (s, Yield (YGen g) k) | Throw e => (s, Raise e) end).
(** On an exception: count it in the state and yield v (models no code). *)
Definition g_handle {D} (v : val D) : gen nat D :=
  Gen (fun i s => match i with Send _ => (s, Stop) | Throw _ => (S s, Yield (YVal v) g_end) end).
(** On an exception: count it in the state and finish (models no code). *)
Definition g_swallow {D} : gen nat D :=
  Gen (fun i s => match i with Send _ => (s, Stop) | Throw _ => (S s, Stop) end).
(** yield a token whose result is the state, which it increments (models no code). *)
Definition g_token : gen nat nat :=
  Gen (fun i s => match i with
    | Send _ => (s, Yield (YTok (fun s => (S s, Ok (VData s)))) g_end)
    | Throw e => (s, Raise e) end).

(** An OS that accepts every command (a byte string) and answers with the command
    itself; the world is the list of answers not fetched yet (models no code). *)
Definition echo_os : os_layer (bytes * Z) (list (Z * resp)) unit bytes := {|
  os_prepare_to_send := fun c idx s => (s, Ok (c, idx));
  os_send := fun r => Gen (fun i s => match i with
    | Throw e => (s, Raise e)
    | Send _ => (with_world s (world s ++ [(snd r, RespData (Some (fst r)))]),
                 Yield (YVal (VData (DInt 0))) g_end) end);
  os_receive := Gen (fun i s => match i with
    | Throw e => (s, Raise e)
    | Send _ => match world s with
                | [] => (s, Raise (EIO 5))
                | (pid, rp) :: rest => (with_world s rest, Yield (YVal (VData (DPair rp pid))) g_end)
                end end)
|}.

(** An OS that rejects every command (models no code). *)
Definition deaf_os : os_layer (bytes * Z) (list (Z * resp)) unit bytes := {|
  os_prepare_to_send := os_prepare_to_send echo_os;
  os_send := fun _ => g_raise (EIO 5);
  os_receive := os_receive echo_os
|}.

Definition echo_arrivals (w : list (Z * resp)) : list (Z * (bytes * Z -> resp)) :=
  map (fun p => (fst p, fun _ => snd p)) w.

Lemma echo_delivers : delivers echo_os echo_arrivals.
Proof.
  unfold delivers. intros st pid f rest r cb H _.
  destruct (world st) as [|[p rp] w] eqn:E; [discriminate|]. simpl in H. inversion H; subst.
  exists w. split; [reflexivity|].
  eapply ev_value; [simpl; rewrite E; reflexivity|apply vdata_not_exn|].
  apply ev_finish; [reflexivity|apply vdata_not_exn].
Qed.

Lemma echo_receive : forall st pid rp rest, world st = (pid, rp) :: rest ->
  evaluates (os_receive echo_os) (Send VNone) false st (with_world st rest)
    (CallReturns (VData (DPair rp pid)) true).
Proof.
  intros. eapply ev_value; [simpl; rewrite H; reflexivity|apply vdata_not_exn|].
  apply ev_finish; [reflexivity|apply vdata_not_exn].
Qed.

Lemma echo_send : forall st r,
  evaluates (os_send echo_os r) (Send VNone) false st
    (with_world st (world st ++ [(snd r, RespData (Some (fst r)))])) (CallReturns (VData (DInt 0)) true).
Proof.
  intros. eapply ev_value; [reflexivity|apply vdata_not_exn|].
  apply ev_finish; [reflexivity|apply vdata_not_exn].
Qed.

Lemma deaf_send : forall st r,
  evaluates (os_send deaf_os r) (Send VNone) false st st (CallRaises (EIO 5)).
Proof. intros. apply ev_raise. reflexivity. Qed.

Lemma same_books_refl : forall R W (s : executer R W), same_books s s.
Proof. intros. unfold same_books. auto. Qed.

Lemma g_end_only_world : forall R W D, only_world (R := R) (W := W) (g_end (D := D)).
Proof.
  intros. constructor; simpl; intros [v|e] s s1; intros; try discriminate;
    inversion H; subst; apply same_books_refl.
Qed.

Lemma echo_only_world : os_only_world echo_os.
Proof.
  split; [|split].
  - intros; apply same_books_refl.
  - intros r; constructor; simpl; intros [v|e] s s1; intros; try discriminate; inversion H; subst.
    + apply same_books_refl.
    + split; [unfold same_books; auto|apply g_end_only_world].
  - constructor; simpl; intros [v|e] s s1; intros; try discriminate;
    try (destruct (world s) as [|[pid rp] rest]); try discriminate; inversion H; subst;
    try apply same_books_refl.
    split; [unfold same_books; auto|apply g_end_only_world].
Qed.

Lemma full_not_queue_full :
  exists s : executer (bytes * Z) (list (Z * resp)), max_queue_size s <= zlen (pending s) /\
    forall s', ~ sync_wait_ends (send echo_os [1] None) s s' (Threw EAsiQueueFull).
Proof.
  exists (Executer [(0, (([9], 0), None))] 0 1 [] []).
  assert (E : max_queue_size (Executer [(0, ((([9] : bytes), 0), None))] 0 1 [] ([] : list (Z * resp))) <=
    zlen (pending (Executer [(0, ((([9] : bytes), 0), None))] 0 1 [] ([] : list (Z * resp))))) by (compute; discriminate).
  split; [exact E|]. intros s' H.
  pose proof (sync_wait_raise _ _ _ _ (full_send echo_os [1] None _ E)) as H'.
  pose proof (sync_wait_det _ _ _ _ _ _ H H') as [_ X]. discriminate.
Qed.
