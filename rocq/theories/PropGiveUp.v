(** C112: going on after a command was given up on Linux. *)
From Coq Require Import ZArith List Bool Lia Permutation.
From Verif Require Import Base BaseFacts Gen SpecGen GenFacts Executer OsCommon OsLinux SpecSg SpecSession SpecExecute ExampleLinux
  SpecQueue QueueFacts SpecGiveUp GiveUpFacts.
Import ListNotations.
Local Open Scope Z_scope.

(** Whatever the device does and however long it is silent in between: a program that uses no more
    commands than the queue has places goes as it should.  (What should happen is [queue_program].) *)
Theorem C112_always : forall T A sense_of (tgt : target T) timeout s script t ops, queue_idle s script t ->
  (forall t cdb data, linux_answer sense_of (snd (tgt t cdb data))) -> Forall fits (commands ops) ->
  zlen (callbacks ops) <= max_queue_size s ->
  NoDup (callbacks ops) -> (forall me, In me (callbacks ops) -> ~ In me (map fst (cb_log s))) ->
  exists n' q' log l s', queue_program tgt (linux_answer sense_of) (max_queue_size s) 0 (Queue script t [] []) ops n' q' log l /\
    program_runs (linux_os (A := A) sense_of (patient tgt) timeout) s ops s' l /\ cb_log s' = cb_log s ++ log.
Proof. exact @always_ends. Qed.

(** Calls that are never answered: the first ones end with an IOError each and keep their places,
    the others with a NameError. *)
Theorem C112_silent : forall T A sense_of (tgt : target T) timeout s cmds t rest,
  let some := firstn (Z.to_nat (max_queue_size s)) cmds in
  queue_idle s (map (fun _ => Silence) some ++ rest) t -> Forall fits (map snd cmds) ->
  NoDup (map fst cmds) -> (forall me, In me (map fst cmds) -> ~ In me (map fst (cb_log s))) ->
  exists s', program_runs (linux_os (A := A) sense_of (patient tgt) timeout) s (calls cmds) s' (unanswered (Z.to_nat (max_queue_size s)) cmds) /\
    cb_log s' = cb_log s /\ zlen (pending s') = zlen some.
Proof. exact @silent_calls. Qed.

(** An executer with a full queue refuses every further command, on every system and whatever the
    device does: only wait() fetches the answers that have come meanwhile. *)
Theorem C112_full_forever : forall R W O (os : os_layer R W O scsi_command) ops s, never_waits ops -> max_queue_size s <= zlen (pending s) ->
  program_runs os s ops s (map (fun _ => Failed EName) ops).
Proof. exact full_stays. Qed.

(** If the answers come late after all, wait() makes the executer as good as new. *)
Theorem C112_wait_recovers : forall T A sense_of (tgt : target T) timeout s cmds t rest all q1,
  let some := firstn (Z.to_nat (max_queue_size s)) cmds in
  queue_idle s (map (fun _ => Silence) some ++ rest) t -> Forall fits (map snd cmds) ->
  NoDup (map fst cmds) -> (forall me, In me (map fst cmds) -> ~ In me (map fst (cb_log s))) ->
  handed_over tgt (linux_answer sense_of) (Queue rest t (numbered 0 some) []) all q1 -> outstanding q1 = [] ->
  exists s', program_runs (linux_os (A := A) sense_of (patient tgt) timeout) s (calls cmds ++ [WaitAll]) s'
      (unanswered (Z.to_nat (max_queue_size s)) cmds ++ [Went]) /\
    cb_log s' = cb_log s ++ map report all /\ queue_idle s' (q_script q1) (q_target q1).
Proof. exact @waits_again. Qed.

(** The device executes every command that was sent at most once, in some order, and no other; when
    nothing is pending any more, for example after wait(), it has executed all of them. *)
Theorem C112_executed_once : forall T (tgt : target T) A sense_of timeout s script t ops n' q' log l, queue_idle s script (t, []) ->
  queue_program (recording tgt) (linux_answer sense_of) (max_queue_size s) 0 (Queue script (t, []) [] []) ops n' q' log l ->
  NoDup (callbacks ops) -> (forall me, In me (callbacks ops) -> ~ In me (map fst (cb_log s))) ->
  exists s', program_runs (linux_os (A := A) sense_of (patient (recording tgt)) timeout) s ops s' l /\
    let w := world s' in let d := l_dev w in
    fst (q_target d) = executed_all tgt (snd (q_target d)) t /\
    Permutation (snd (q_target d) ++ map (fun b => (described_cdb b (l_heap w), described_data b (l_heap w))) (q_accepted d)) (sent_commands ops l) /\
    (pending s' = [] -> q_accepted d = []).
Proof. exact @executed_once. Qed.

(** Not so later: after any program, when a command is still out that was sent exactly
    [max_queue_size] commands ago and its answer comes next, a call() takes this answer for its own:
    it returns zeros for a successful read, and the error of the other command otherwise. *)
Theorem C112_late_answer_refuted : forall T A sense_of (tgt : target T) timeout s script t ops n q log l me c old a q1, queue_idle s script t ->
  queue_program tgt (linux_answer sense_of) (max_queue_size s) 0 (Queue script t [] []) ops n q log l ->
  NoDup (callbacks ops ++ [me]) -> (forall m, In m (callbacks ops ++ [me]) -> ~ In m (map fst (cb_log s))) ->
  fits c -> zlen (outstanding q) < max_queue_size s -> In old (outstanding q) -> l_seq old = n - max_queue_size s ->
  next (execute_label tgt) (accept (Label n me c) q) = Some (old, a, q1) -> linux_answer sense_of a ->
  exists s', program_runs (linux_os (A := A) sense_of (patient tgt) timeout) s (ops ++ [Call me c]) s'
      (l ++ [Answered (linux_expected c (without_data a))]) /\
    cb_log s' = cb_log s ++ log ++ [(me, linux_expected c (without_data a))].
Proof. exact @late_program. Qed.

(** ** Examples *)
Definition ticking : target Z := fun t cdb data => (t + 1, Answer 0 0 0 [t; byte_at 0 cdb] []).
Definition tick_os := linux_os (A := unit) any_sense (patient ticking) 10000.
Definition ticks (n : Z) (script : list device_event) : executer sgio (linux_world (queue sg_hdr Z)) :=
  executer_init n (LinuxWorld [] (Queue script 1 [] []) None).
Definition rd (op : Z) : scsi_command := ReadCmd [op; 0; 0; 0; 2; 0] 2.

(** Running a program by computation. *)
Definition seen_of {S O} (o : outcome S (dval O)) : option seen :=
  match o with
  | Returned (RVal VNone) => Some (Answered (RespData None))
  | Returned (RVal (VData (DBytes b))) => Some (Answered (RespData (Some b)))
  | Threw e => Some (Failed e)
  | _ => None
  end.
Fixpoint run_program {R W O} (os : os_layer R W O scsi_command) (s : executer R W) (ops : list op) : option (executer R W * list seen) :=
  match ops with
  | [] => Some (s, [])
  | o :: ops =>
    match match o with
      | Submit me c => match sync_wait 100 (send os c (Some me)) s with
                       | Some (s1, Threw e) => Some (s1, Failed e) | Some (s1, _) => Some (s1, Went) | None => None end
      | WaitAll => match sync_wait 100 (wait os) s with
                   | Some (s1, Threw e) => Some (s1, Failed e) | Some (s1, _) => Some (s1, Went) | None => None end
      | Call me c => match sync_wait 100 (call os me c) s with
                     | Some (s1, r) => match seen_of r with Some x => Some (s1, x) | None => None end | None => None end
      end with
    | None => None
    | Some (s1, x) => match run_program os s1 ops with None => None | Some (s2, l) => Some (s2, x :: l) end
    end
  end.
Lemma run_program_runs : forall R W O (os : os_layer R W O scsi_command) ops s s' l, run_program os s ops = Some (s', l) -> program_runs os s ops s' l.
Proof.
  intros R W O os. induction ops as [|o ops IH]; intros s s' l H; cbn [run_program] in H; [inversion H; constructor|].
  destruct o as [me c|me c|].
  - destruct (sync_wait 100 _ s) as [[s1 r]|] eqn:E; [|discriminate]. apply sync_wait_some_ends in E.
    destruct r as [v|e], (run_program os s1 ops) as [[s2 l2]|] eqn:F; try discriminate; inversion H; subst; apply IH in F.
    + eapply pg_submit; eauto.
    + eapply pg_submit_fails; eauto.
  - destruct (sync_wait 100 _ s) as [[s1 r]|] eqn:E; [|discriminate]. apply sync_wait_some_ends in E.
    destruct (seen_of r) as [x|] eqn:G; [|discriminate].
    destruct (run_program os s1 ops) as [[s2 l2]|] eqn:F; [|discriminate]. inversion H; subst. apply IH in F.
    destruct r as [r|e]; cbn [seen_of] in G; [destruct r as [v| |]; try discriminate; destruct v as [|d|]; try discriminate; [|destruct d; try discriminate]|]; inversion G; subst.
    + eapply (pg_call _ _ _ _ _ _ (RespData None)); eauto.
    + eapply (pg_call _ _ _ _ _ _ (RespData (Some l))); eauto.
    + eapply pg_call_fails; eauto.
  - destruct (sync_wait 100 _ s) as [[s1 r]|] eqn:E; [|discriminate]. apply sync_wait_some_ends in E.
    destruct r as [v|e], (run_program os s1 ops) as [[s2 l2]|] eqn:F; try discriminate; inversion H; subst; apply IH in F.
    + eapply pg_wait; eauto.
    + eapply pg_wait_fails; eauto.
Qed.
Definition ran script n ops := option_map (fun p => (snd p, cb_log (fst p), length (pending (fst p)))) (run_program tick_os (ticks n script) ops).


(** The first command is given up; the answers come in the wrong order afterwards. *)
Definition slow : list device_event := [Run 0; Silence; Run 0; HandOver 0; HandOver 0; Run 0; HandOver 0].
Definition three : list (nat * scsi_command) := [(1%nat, rd 18); (2%nat, rd 37); (3%nat, rd 8)].
Lemma three_fit : Forall fits (map snd three).
Proof. repeat constructor. Qed.
Example C112_always_hypotheses : queue_idle (ticks 15 slow) slow 1 /\
  (forall t cdb data, linux_answer any_sense (snd (ticking t cdb data))) /\ Forall fits (commands (calls three)) /\
  zlen (callbacks (calls three)) <= 15 /\ NoDup (callbacks (calls three)).
Proof.
  split; [repeat split; cbn; lia|]. split; [intros t cdb data H; reflexivity|]. split; [exact three_fit|]. split; [discriminate|].
  cbn. repeat constructor; cbn; intuition congruence.
Qed.
Example C112_always_example : ran slow 15 (calls three) = Some
  ([Failed (EIO 0); Answered (RespData (Some [2; 37])); Answered (RespData (Some [3; 8]))],
   [(1%nat, RespData (Some [1; 18])); (2%nat, RespData (Some [2; 37])); (3%nat, RespData (Some [3; 8]))], 0%nat).
Proof. vm_compute. reflexivity. Qed.

(** A queue of two, three commands, no answer; then wait() finds both answers. *)
Definition back : list device_event := [Run 1; Run 0; HandOver 0; HandOver 0; Run 0; HandOver 0].
Example C112_silent_hypotheses :
  queue_idle (ticks 2 ([Silence; Silence] ++ back)) (map (fun _ => Silence) (firstn (Z.to_nat (max_queue_size (ticks 2 back))) three) ++ back) 1 /\
  NoDup (map fst three).
Proof. split; [repeat split; cbn; lia|]. cbn. repeat constructor; cbn; intuition congruence. Qed.
Example C112_silent_example : ran ([Silence; Silence] ++ back) 2 (calls three) = Some ([Failed (EIO 0); Failed (EIO 0); Failed EName], [], 2%nat).
Proof. vm_compute. reflexivity. Qed.
Example C112_full_forever_example : ran ([Silence; Silence] ++ back) 2 (calls three ++ [Submit 4 (rd 1); Call 5 (rd 2); Call 6 (rd 3)]) =
  Some ([Failed (EIO 0); Failed (EIO 0); Failed EName; Failed EName; Failed EName; Failed EName], [], 2%nat).
Proof. vm_compute. reflexivity. Qed.
Example C112_wait_recovers_hypotheses : exists all q1,
  handed_over ticking (linux_answer any_sense) (Queue back 1 (numbered 0 (firstn 2 three)) []) all q1 /\ outstanding q1 = [] /\
  map report all = [(2%nat, RespData (Some [1; 37])); (1%nat, RespData (Some [2; 18]))].
Proof.
  eexists _, _. split; [|split].
  - eapply ho_next; [reflexivity|intros H; discriminate H|]. eapply ho_next; [reflexivity|intros H; discriminate H|constructor].
  - reflexivity.
  - reflexivity.
Qed.
Example C112_wait_recovers_example : ran ([Silence; Silence] ++ back) 2 (calls three ++ [WaitAll; Call 4 (rd 1)]) = Some
  ([Failed (EIO 0); Failed (EIO 0); Failed EName; Went; Answered (RespData (Some [3; 1]))],
   [(2%nat, RespData (Some [1; 37])); (1%nat, RespData (Some [2; 18])); (4%nat, RespData (Some [3; 1]))], 0%nat).
Proof. vm_compute. reflexivity. Qed.

(** A late answer in a queue of two: one call given up, one answered, and the third is told zeros. *)
Definition late : list device_event := [Run 0; Silence; Run 0; HandOver 1; HandOver 0; Run 0; HandOver 0].
Example C112_late_hypotheses : exists n q log l old a q1,
  queue_program ticking (linux_answer any_sense) 2 0 (Queue late 1 [] []) (calls [(1%nat, rd 18); (2%nat, rd 37)]) n q log l /\
  zlen (outstanding q) < 2 /\ In old (outstanding q) /\ l_seq old = n - 2 /\
  next (execute_label ticking) (accept (Label n 3 (rd 8)) q) = Some (old, a, q1) /\ linux_answer any_sense a.
Proof.
  assert (F : forall op, fits (rd op)) by (intros op; split; reflexivity).
  eexists _, _, _, _, _, _, _. split.
  - eapply (qp_call_given_up _ _ _ _ _ _ _ []); [apply F|reflexivity|constructor|constructor|intros []|reflexivity|].
    eapply (qp_call _ _ _ _ _ _ _ _ []); [apply F|reflexivity|repeat constructor| |constructor].
    eapply ho_next; [reflexivity|intros H; discriminate H|constructor].
  - split; [reflexivity|]. split; [left; reflexivity|]. split; [reflexivity|]. split; [reflexivity|]. intros H; discriminate H.
Qed.

(** The same with the default queue size: one call given up, fourteen answered, the next one is told
    zeros though the device has not seen it, and the one after that fails with an AttributeError. *)
Definition busy : list device_event := [Run 0; Silence] ++ flat_map (fun _ => [Run 0; HandOver 1]) (seq 0 14) ++ [HandOver 0; Run 0; HandOver 0].
Definition fourteen : list (nat * scsi_command) := map (fun i => (i, rd (Z.of_nat i))) (seq 2 14).
Example C112_default_queue : 
  option_map (fun p => (fst (fst p), snd p)) (ran busy 15 (calls ((1%nat, rd 18) :: fourteen ++ [(16%nat, rd 40); (17%nat, rd 37)]))) =
  Some (Failed (EIO 0) :: map (fun i => Answered (RespData (Some [i; i]))) [2; 3; 4; 5; 6; 7; 8; 9; 10; 11; 12; 13; 14; 15] ++
        [Answered (RespData (Some [0; 0])); Failed EAttribute], 1%nat).
Proof. vm_compute. reflexivity. Qed.

(** A block of one byte: a WRITE of 1 is given up, a WRITE of 2 is answered, and then the device executes the first. *)
Definition cell : target Z := fun t cdb data => match data with [b] => (b, Answer 0 0 0 [] []) | _ => (t, Answer 0 0 0 [t] []) end.
Definition overtaken : list device_event := [Silence; Run 1; HandOver 0; Run 0; Run 0; HandOver 1; HandOver 0].
Definition wr (b : Z) : scsi_command := WriteCmd [10; 0; 0; 0; 1; 0] [b].
Definition get_it : scsi_command := ReadCmd [8; 0; 0; 0; 1; 0] 1.
Example C112_executed_once_hypotheses : exists n' q' log l,
  queue_program (recording cell) (linux_answer any_sense) 15 0 (Queue overtaken (0, []) [] []) [Call 1 (wr 1); Call 2 (wr 2); Call 3 get_it; WaitAll] n' q' log l /\
  l = [Failed (EIO 0); Answered (RespData None); Answered (RespData (Some [1])); Went].
Proof.
  eexists _, _, _, _. split.
  {
  eapply (qp_call_given_up _ _ _ _ _ _ _ []); [split; reflexivity|reflexivity|constructor|constructor|intros []|reflexivity|].
  eapply (qp_call _ _ _ _ _ _ _ _ []); [split; reflexivity|reflexivity|repeat constructor| |].
  { eapply ho_next; [reflexivity|intros H; discriminate H|constructor]. }
  eapply (qp_call _ _ _ _ _ _ _ _ []); [split; reflexivity|reflexivity|repeat constructor| |].
  { eapply ho_next; [reflexivity|intros H; discriminate H|constructor]. }
  eapply (qp_wait _ _ _ _ _ [_]); [eapply ho_next; [reflexivity|intros H; discriminate H|constructor]|reflexivity|constructor]. }
  reflexivity.
Qed.
Example C112_executed_once_example :
  option_map (fun p => (snd p, q_target (l_dev (world (fst p)))))
    (run_program (linux_os (A := unit) any_sense (patient (recording cell)) 10000) (executer_init 15 (LinuxWorld [] (Queue overtaken (0, []) [] []) None))
      [Call 1 (wr 1); Call 2 (wr 2); Call 3 get_it; WaitAll]) =
  Some ([Failed (EIO 0); Answered (RespData None); Answered (RespData (Some [1])); Went], (1, [as_sent (wr 2); as_sent (wr 1); as_sent get_it])).
Proof. vm_compute. reflexivity. Qed.

Print Assumptions C112_always.
Print Assumptions C112_silent.
Print Assumptions C112_full_forever.
Print Assumptions C112_wait_recovers.
Print Assumptions C112_late_answer_refuted.
Print Assumptions C112_executed_once.
