(** C122: the memory of commands that are out on Linux. *)
From Coq Require Import ZArith List Bool Lia Permutation.
From Verif Require Import Base BaseFacts Gen SpecGen GenFacts Executer OsCommon OsLinux SpecSg SpecSession SpecExecute ExampleLinux
  SpecQueue QueueFacts SpecGiveUp GiveUpFacts PropGiveUp SpecMemory MemoryFacts.
Import ListNotations.
Local Open Scope Z_scope.

(** After every program that goes as it should (C85, C112: also one of which commands were given up and are
    still out), the driver has exactly the requests whose objects the executer holds, and these objects keep
    all memory that the driver will use. *)
Theorem C122_kept : forall T A sense_of (tgt : target T) timeout s script t ops n' q' log l, queue_idle s script t ->
  queue_program tgt (linux_answer sense_of) (max_queue_size s) 0 (Queue script t [] []) ops n' q' log l ->
  NoDup (callbacks ops) -> (forall me, In me (callbacks ops) -> ~ In me (map fst (cb_log s))) ->
  exists s', program_runs (linux_os (A := A) sense_of (patient tgt) timeout) s ops s' l /\ cb_log s' = cb_log s ++ log /\ memory_kept s'.
Proof. exact @programs_keep. Qed.

(** So all other memory may be reused for whatever Python likes while commands are out: the program sees, and
    the callbacks get, the same. *)
Theorem C122_reused : forall T A sense_of (tgt : target T) timeout s script t ops n' q' log l reuse, queue_idle s script t ->
  (forall s, may_become s (reuse s)) ->
  queue_program tgt (linux_answer sense_of) (max_queue_size s) 0 (Queue script t [] []) ops n' q' log l ->
  NoDup (callbacks ops) -> (forall me, In me (callbacks ops) -> ~ In me (map fst (cb_log s))) ->
  exists s', runs_while_reused (linux_os (A := A) sense_of (patient tgt) timeout) reuse s ops s' l /\ cb_log s' = cb_log s ++ log /\ memory_kept s'.
Proof. exact @programs_reused. Qed.

(** Not so later: after any such program, when a command is still out that was sent exactly [max_queue_size]
    commands ago and there is room in the queue, the next send() lets its memory go while the driver has it. *)
Theorem C122_dropped_refuted : forall T A sense_of (tgt : target T) timeout s script t ops n q log l me c old, queue_idle s script t ->
  queue_program tgt (linux_answer sense_of) (max_queue_size s) 0 (Queue script t [] []) ops n q log l ->
  NoDup (callbacks ops) -> (forall m, In m (callbacks ops) -> ~ In m (map fst (cb_log s))) ->
  zlen (outstanding q) < max_queue_size s -> In old (outstanding q) -> l_seq old = n - max_queue_size s ->
  exists s' blk, program_runs (linux_os (A := A) sense_of (patient tgt) timeout) s (ops ++ [Submit me c]) s' (l ++ [Went]) /\ dangling blk s' /\
    described_cdb blk (l_heap (world s')) = command_of (l_cmd old) /\ described_data blk (l_heap (world s')) = data_out (l_cmd old).
Proof. exact @program_drops. Qed.

(** ** Examples *)

(** Memory that is not kept is filled with 99. *)
Section Scribble.
Context {T : Type}.
Notation ex := (executer sgio (linux_world (queue sg_hdr T))).
Definition scribbled (s : ex) : heap :=
  map (fun p => if existsb (Nat.eqb p) (flat_map kept_by (held s)) then nth p (l_heap (world s)) [] else [99])
    (seq 0 (length (l_heap (world s)))) ++ [[99]].
Lemma scribbled_ok : forall s, (forall r p, In r (held s) -> In p (kept_by r) -> (p < length (l_heap (world s)))%nat) -> may_become s (scribbled s).
Proof.
  intros s V. unfold scribbled. split; [rewrite app_length, map_length, seq_length; lia|].
  intros r p Hr Hp. pose proof (V r p Hr Hp) as B. rewrite nth_error_app1 by (rewrite map_length, seq_length; exact B).
  rewrite nth_error_map. rewrite (nth_error_nth' _ 0%nat) by (rewrite seq_length; exact B). rewrite seq_nth by exact B. cbn [option_map plus].
  replace (existsb _ _) with true.
  - symmetry. apply nth_error_nth'. exact B.
  - symmetry. apply existsb_exists. exists p. split; [|apply Nat.eqb_refl]. apply in_flat_map. eauto.
Qed.
(** Where the executer is sound the memory is scribbled on, elsewhere (no such state is reached) nothing happens. *)
Definition sound (s : ex) : bool := forallb (fun r => forallb (fun p => Nat.ltb p (length (l_heap (world s)))) (kept_by r)) (held s).
Definition scribble (s : ex) : heap := if sound s then scribbled s else l_heap (world s).
Lemma scribble_ok : forall s, may_become s (scribble s).
Proof.
  intros s. unfold scribble. destruct (sound s) eqn:E.
  - apply scribbled_ok. intros r p Hr Hp. unfold sound in E. rewrite forallb_forall in E. specialize (E r Hr).
    rewrite forallb_forall in E. specialize (E p Hp). apply Nat.ltb_lt. exact E.
  - split; [lia|auto].
Qed.
Fixpoint run_scribbling {O} (os : os_layer sgio (linux_world (queue sg_hdr T)) O scsi_command) (s : ex) (ops : list op) : option (ex * list seen) :=
  match ops with
  | [] => Some (s, [])
  | o :: ops =>
    match run_program os s [o] with
    | Some (s1, [x]) => match run_scribbling os (with_heap s1 (scribble s1)) ops with Some (s2, l) => Some (s2, x :: l) | None => None end
    | _ => None
    end
  end.
Lemma run_scribbling_runs : forall O (os : os_layer sgio (linux_world (queue sg_hdr T)) O scsi_command) ops s s' l,
  run_scribbling os s ops = Some (s', l) -> runs_while_reused os scribble s ops s' l.
Proof.
  intros O os. induction ops as [|o ops IH]; intros s s' l H; cbn [run_scribbling] in H; [inversion H; constructor|].
  destruct (run_program os s [o]) as [[s1 [|x [|y l1]]]|] eqn:E; try discriminate.
  destruct (run_scribbling os _ ops) as [[s2 l2]|] eqn:F; [|discriminate]. inversion H; subst.
  eapply rr_op; [apply run_program_runs; exact E|]. apply IH. exact F.
Qed.
End Scribble.

Definition cell_os := linux_os (A := unit) any_sense (patient cell) 10000.
Definition cells (n : Z) (script : list device_event) : executer sgio (linux_world (queue sg_hdr Z)) :=
  executer_init n (LinuxWorld [] (Queue script 0 [] []) None).

(** A WRITE of 5 is given up, the next one answered; both are as they should be, though memory is scribbled on,
    and so is the block after wait(). *)
Definition slowly : list device_event := [Silence; Run 1; HandOver 0; Run 0; HandOver 0].
Definition two_writes : list op := [Call 1 (wr 5); Call 2 (wr 6); WaitAll].
Example C122_kept_hypotheses : queue_idle (cells 2 slowly) slowly 0 /\
  NoDup (callbacks two_writes) /\ exists n' q' log l,
  queue_program cell (linux_answer any_sense) 2 0 (Queue slowly 0 [] []) two_writes n' q' log l /\
  l = [Failed (EIO 0); Answered (RespData None); Went].
Proof.
  split; [repeat split; cbn; lia|]. split; [cbn; repeat constructor; cbn; intuition congruence|].
  eexists _, _, _, _. split.
  { eapply (qp_call_given_up _ _ _ _ _ _ _ []); [split; reflexivity|reflexivity|constructor|constructor|intros []|reflexivity|].
    eapply (qp_call _ _ _ _ _ _ _ _ []); [split; reflexivity|reflexivity|repeat constructor| |].
    { eapply ho_next; [reflexivity|intros H; discriminate H|constructor]. }
    eapply (qp_wait _ _ _ _ _ [_]); [eapply ho_next; [reflexivity|intros H; discriminate H|constructor]|reflexivity|constructor]. }
  reflexivity.
Qed.
Example C122_kept_example :
  option_map (fun p => (snd p, q_target (l_dev (world (fst p))), l_heap (world (fst p)))) (run_scribbling cell_os (cells 2 slowly) two_writes) =
  Some ([Failed (EIO 0); Answered (RespData None); Went], 5, repeat [99] 9).
Proof. vm_compute. reflexivity. Qed.

(** A third WRITE is sent before wait(): the first command was sent two commands ago, its memory is let go. *)
Example C122_dropped_hypotheses : exists n q log l old,
  queue_program cell (linux_answer any_sense) 2 0 (Queue slowly 0 [] []) [Call 1 (wr 5); Call 2 (wr 6)] n q log l /\
  zlen (outstanding q) < 2 /\ In old (outstanding q) /\ l_seq old = n - 2 /\ l_cmd old = wr 5.
Proof.
  eexists _, _, _, _, _. split.
  { eapply (qp_call_given_up _ _ _ _ _ _ _ []); [split; reflexivity|reflexivity|constructor|constructor|intros []|reflexivity|].
    eapply (qp_call _ _ _ _ _ _ _ _ []); [split; reflexivity|reflexivity|repeat constructor| |constructor].
    eapply ho_next; [reflexivity|intros H; discriminate H|constructor]. }
  split; [reflexivity|]. split; [left; reflexivity|]. split; reflexivity.
Qed.

(** What may come of it: the device writes what nobody has ever asked it to write. *)
Definition three_writes : list op := [Call 1 (wr 5); Call 2 (wr 6); Submit 3 (wr 7); WaitAll].
Theorem C122_reused_refuted : exists s' l, (forall s : executer sgio (linux_world (queue sg_hdr Z)), may_become s (scribble s)) /\
  runs_while_reused cell_os scribble (cells 2 slowly) three_writes s' l /\
  l = [Failed (EIO 0); Answered (RespData None); Went; Went] /\ q_target (l_dev (world s')) = 99.
Proof.
  destruct (run_scribbling cell_os (cells 2 slowly) three_writes) as [[s' l]|] eqn:E.
  - exists s', l. split; [exact scribble_ok|]. split; [apply run_scribbling_runs; exact E|].
    assert (X : option_map (fun p => (snd p, q_target (l_dev (world (fst p))))) (run_scribbling cell_os (cells 2 slowly) three_writes) =
      Some ([Failed (EIO 0); Answered (RespData None); Went; Went], 99)) by (vm_compute; reflexivity).
    rewrite E in X. cbn [option_map fst snd] in X. inversion X. auto.
  - exfalso. assert (X : option_map (fun _ => tt) (run_scribbling cell_os (cells 2 slowly) three_writes) = Some tt) by (vm_compute; reflexivity).
    rewrite E in X. discriminate X.
Qed.

Print Assumptions C122_kept.
Print Assumptions C122_reused.
Print Assumptions C122_dropped_refuted.
Print Assumptions C122_reused_refuted.
