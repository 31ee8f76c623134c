(** C97: greenlets that share an executer. *)
From Coq Require Import ZArith List Bool Lia PeanoNat.
From Verif Require Import Base Gen SpecGen Executer OsCommon OsLinux OsWin32 SpecSg SpecDrivers SpecSession ExampleLinux SpecQueue Greenlet SpecGreen
  GreenFacts GreenWinFacts GreenIoctlFacts.
Import ListNotations.
Local Open Scope Z_scope.

(** A greenlet that is alone does what sync_wait does without gevent, wherever it sleeps. *)
Theorem C97_alone : forall S D (sleeps : S -> nat) (g : gen S D) s s' o,
  sync_wait_ends g s s' o <->
  exists k gs', greenlets sleeps s (spawned 1 (fun _ => g)) (repeat 0%nat k) s' gs' /\ gs' 0%nat = Over o.
Proof. exact alone_iff. Qed.

(** What happens is decided by the order of the turns. *)
Theorem C97_schedule_decides : forall S D (sleeps : S -> nat) s gs l s1 gs1, greenlets (D := D) sleeps s gs l s1 gs1 ->
  forall s2 gs2, greenlets sleeps s gs l s2 gs2 -> s1 = s2 /\ gs1 = gs2.
Proof. exact greenlets_det. Qed.

(** Linux, any order of the turns, any device: every call sends its command in its first turn and
    ends with the answer to its own command, or with a timeout. *)
Theorem C97_linux_any_schedule : forall T A sense_of (tgt : target T) timeout count cmd s script t schedule s' gs',
  intelligible sense_of tgt -> (forall h, (h < count)%nat -> fits (cmd h)) -> unused count script t s -> Z.of_nat count <= max_queue_size s ->
  greenlets linux_sleeps s (spawned count (fun h => call (linux_os (A := A) sense_of (friendly_sg (queueing tgt)) timeout) h (cmd h))) schedule s' gs' ->
  exists events q', traffic tgt (quiet script t) events q' /\ senders events = first_turns [] schedule /\ (length schedule <= 3 * count)%nat /\
    forall h, (h < count)%nat ->
      match gs' h with
      | Over o => o = Threw (EIO 0) \/ exists n a, In (Got (Label n h (cmd h)) a) events /\ o = user_sees (linux_expected (cmd h) a)
      | Ready c => exists s2 g, segment linux_sleeps c s' s2 g
      end.
Proof. exact @linux_any_schedule. Qed.

(** Turns in rounds, all commands answered: whoever has read at least as many answers as came
    before theirs gets their own; whoever is answered later than that raises, although the
    answer has arrived. *)
Theorem C97_linux_rounds : forall T A sense_of (tgt : target T) timeout count cmd s script t l q',
  intelligible sense_of tgt -> (forall h, (h < count)%nat -> fits (cmd h)) -> unused count script t s -> Z.of_nat count <= max_queue_size s ->
  handed_over tgt (fun _ => True) (all_sent cmd count (quiet script t)) l q' -> length l = count ->
  exists s' gs',
    greenlets linux_sleeps s (spawned count (fun h => call (linux_os (A := A) sense_of (friendly_sg (queueing tgt)) timeout) h (cmd h))) (rounds count) s' gs' /\
    forall h, (h < count)%nat -> exists j a, nth_error l j = Some (nth_label cmd h, a) /\
      gs' h = Over (if Nat.leb j h then user_sees (linux_expected (cmd h) a) else Threw (EIO 0)).
Proof. exact @linux_rounds. Qed.

(** So no call fails if the device answers in the order of the commands. *)
Theorem C97_linux_in_order : forall T A sense_of (tgt : target T) timeout count cmd s script t l q',
  intelligible sense_of tgt -> (forall h, (h < count)%nat -> fits (cmd h)) -> unused count script t s -> Z.of_nat count <= max_queue_size s ->
  handed_over tgt (fun _ => True) (all_sent cmd count (quiet script t)) l q' -> map fst l = map (nth_label cmd) (seq 0 count) ->
  exists s' gs',
    greenlets linux_sleeps s (spawned count (fun h => call (linux_os (A := A) sense_of (friendly_sg (queueing tgt)) timeout) h (cmd h))) (rounds count) s' gs' /\
    forall h, (h < count)%nat -> exists a, nth_error l h = Some (nth_label cmd h, a) /\ gs' h = Over (user_sees (linux_expected (cmd h) a)).
Proof.
  intros T A sense_of tgt timeout count cmd s script t l q' Hi Hf U Hc H E.
  assert (L : length l = count) by (rewrite <- (map_length fst l), E, map_length, seq_length; reflexivity).
  destruct (linux_rounds (A := A) sense_of tgt timeout count cmd s script t l q' Hi Hf U Hc H L) as (s' & gs' & R & G).
  exists s', gs'. split; [exact R|]. intros h Hh. destruct (G h Hh) as (j & a & N & E1).
  assert (j = h).
  { assert (Lj : (j < count)%nat) by (rewrite <- L; apply nth_error_Some; congruence).
    assert (X : nth_error (map fst l) j = Some (nth_label cmd j)).
    { rewrite E. replace (Some (nth_label cmd j)) with (option_map (nth_label cmd) (nth_error (seq 0 count) j)); [apply nth_error_map|].
      rewrite (nth_error_nth' _ 0%nat) by (rewrite seq_length; exact Lj). rewrite seq_nth by exact Lj. reflexivity. }
    rewrite nth_error_map, N in X. cbn in X. unfold nth_label in X. inversion X. lia. }
  subst j. exists a. rewrite Nat.leb_refl in E1. auto.
Qed.

(** Windows: in any order of the turns, every call has the answer of the target to its own
    command, the commands being executed in the order of the first turns; it needs two turns, or
    one if DeviceIoControl fails. *)
Theorem C97_windows : forall T A sense_of (tgt : target T) count cmd s t schedule s' gs',
  win_intelligible sense_of tgt -> (forall h, (h < count)%nat -> win_fits (cmd h)) -> win_unused count t s -> Z.of_nat count <= max_queue_size s ->
  greenlets win_sleeps s (spawned count (fun h => call (win_os (A := A) sense_of (friendly_win (honest_win tgt))) h (cmd h))) schedule s' gs' ->
  fst (w_dev (world s')) = fst (answers tgt cmd (first_turns [] schedule) t) /\
  forall h, (h < count)%nat ->
    match gs' h with
    | Over o => exists a, In (h, a) (snd (answers tgt cmd (first_turns [] schedule) t)) /\ o = win_verdict (cmd h) a /\
        count_occ Nat.eq_dec schedule h = win_turns a
    | Ready c => (count_occ Nat.eq_dec schedule h <= 1)%nat /\ exists s2 g, segment win_sleeps c s' s2 g
    end.
Proof. exact @win_any_schedule. Qed.

(** SG_IO on Linux: in any order of the turns, a call has the data of its own command if somebody
    has looked at the buffer of the executer while its request was there, and raises
    AttributeError otherwise. *)
Theorem C97_sg_io : forall T A sense_of (tgt : target T) timeout count cmd s t schedule s' gs',
  (forall h, (h < count)%nat -> fits (cmd h)) -> ioctl_unused count t s -> Z.of_nat count <= max_queue_size s ->
  greenlets linux_sleeps s (spawned count (fun h => call (linux_ioctl_os (A := A) sense_of (friendly_sg (honest tgt)) timeout) h (cmd h))) schedule s' gs' ->
  fst (fst (l_dev (world s'))) = fst (answers tgt cmd (first_turns [] schedule) t) /\
  forall h, (h < count)%nat ->
    match gs' h with
    | Over o => count_occ Nat.eq_dec schedule h = 2%nat /\
        if existsb (Nat.eqb h) (taken [] [] None schedule)
        then exists a, In (h, a) (snd (answers tgt cmd (first_turns [] schedule) t)) /\ o = user_sees (RespData (data_wanted (cmd h) (a_data a)))
        else o = Threw EAttribute
    | Ready c => (count_occ Nat.eq_dec schedule h <= 1)%nat /\ exists s2 g, segment linux_sleeps c s' s2 g
    end.
Proof. exact @ioctl_any_schedule. Qed.

(** All orders of two turns for each call are possible. *)
Theorem C97_windows_runs : forall T A sense_of (tgt : target T) count cmd s t schedule,
  win_intelligible sense_of tgt -> (forall h, (h < count)%nat -> win_fits (cmd h)) -> win_unused count t s -> Z.of_nat count <= max_queue_size s ->
  (forall t1 cdb data, a_host (snd (tgt t1 cdb data)) = 0) ->
  (forall h, In h schedule -> (h < count)%nat /\ (count_occ Nat.eq_dec schedule h <= 2)%nat) ->
  exists s' gs', greenlets win_sleeps s (spawned count (fun h => call (win_os (A := A) sense_of (friendly_win (honest_win tgt))) h (cmd h))) schedule s' gs'.
Proof. exact @win_runs. Qed.
Theorem C97_sg_io_runs : forall T A sense_of (tgt : target T) timeout count cmd s t schedule,
  (forall h, (h < count)%nat -> fits (cmd h)) -> ioctl_unused count t s -> Z.of_nat count <= max_queue_size s ->
  (forall h, In h schedule -> (h < count)%nat /\ (count_occ Nat.eq_dec schedule h <= 2)%nat) ->
  exists s' gs', greenlets linux_sleeps s (spawned count (fun h => call (linux_ioctl_os (A := A) sense_of (friendly_sg (honest tgt)) timeout) h (cmd h))) schedule s' gs'.
Proof. exact @ioctl_runs. Qed.

(** ** Cases *)
Definition green_target : target Z := fun t cdb data => (t + 1, Answer (if t =? 5 then 2 else 0) 0 0 [t; byte_at 0 cdb] [112; 0; 5]).
Definition green_cmd (h : nat) : scsi_command := ReadCmd [Z.of_nat h + 18; 0; 0; 0; 2; 0] 2.
Lemma green_fits : forall h, fits (green_cmd h).
Proof. intros h. split; cbn; lia. Qed.
Lemma green_win_fits : forall h, win_fits (green_cmd h).
Proof. intros h. split; cbn; lia. Qed.
Lemma green_clear : intelligible any_sense green_target /\ win_intelligible any_sense green_target.
Proof. split; intros t cdb data _; reflexivity. Qed.

(** Linux: three greenlets with turns in rounds; answers in order. *)
Definition sg_used (script : list device_event) : executer sgio (linux_world (queue sg_hdr Z * nat)) :=
  Executer [] 2 4 [(9%nat, RespData None)] (LinuxWorld [[1; 2]] (quiet script 4, 7%nat) None).
Lemma sg_used_unused : forall script, unused 3 script 4 (sg_used script).
Proof.
  intros script. split; [reflexivity|]. split; [cbn; lia|]. split; [cbn; lia|]. split; [reflexivity|].
  intros h Hh [F|[]]. cbn in F. lia.
Qed.
Definition orderly : list device_event := [Run 0; Run 0; Run 0; HandOver 0; HandOver 0; HandOver 0].
Definition green_out (h : nat) (a : answer) : outcome (executer sgio (linux_world (queue sg_hdr Z * nat))) (dval (wire (option sg_hdr) unit)) :=
  user_sees (linux_expected (green_cmd h) a).
Example C97_in_order_example : exists s' gs',
  greenlets linux_sleeps (sg_used orderly)
    (spawned 3 (fun h => call (linux_os (A := unit) any_sense (friendly_sg (queueing green_target)) 30000) h (green_cmd h))) (rounds 3) s' gs' /\
  gs' 0%nat = Over (green_out 0 (Answer 0 0 0 [4; 18] [112; 0; 5])) /\
  gs' 1%nat = Over (green_out 1 (Answer 2 0 0 [5; 19] [112; 0; 5])) /\
  gs' 2%nat = Over (green_out 2 (Answer 0 0 0 [6; 20] [112; 0; 5])).
Proof.
  pose (l := [(nth_label green_cmd 0, Answer 0 0 0 [4; 18] [112; 0; 5]); (nth_label green_cmd 1, Answer 2 0 0 [5; 19] [112; 0; 5]);
     (nth_label green_cmd 2, Answer 0 0 0 [6; 20] [112; 0; 5])]).
  assert (H : handed_over green_target (fun _ => True) (all_sent green_cmd 3 (quiet orderly 4)) l (Queue [] 7 [] [])).
  { eapply ho_next; [reflexivity|exact Logic.I|]. eapply ho_next; [reflexivity|exact Logic.I|]. eapply ho_next; [reflexivity|exact Logic.I|]. constructor. }
  destruct (C97_linux_in_order Z unit any_sense green_target 30000 3 green_cmd (sg_used orderly) orderly 4 l _
    (proj1 green_clear) (fun h _ => green_fits h) (sg_used_unused _) ltac:(cbn; lia) H eq_refl) as (s' & gs' & R & G).
  exists s', gs'. split; [exact R|].
  split; [|split]; [destruct (G 0%nat) as (a & N & ->)|destruct (G 1%nat) as (a & N & ->)|destruct (G 2%nat) as (a & N & ->)];
    try lia; inversion N; subst; reflexivity.
Qed.

(** The third command is answered first: the first greenlet reads that answer, the second one that
    of the first, the third one that of the second.  The first two have read one answer each and
    not their own: they raise a timeout, though their answers have arrived. *)
Definition overtaking : list device_event := [Run 2; HandOver 0; Run 0; HandOver 0; Run 0; HandOver 0].
Theorem C97_linux_overtaken_refuted : exists s' gs',
  greenlets linux_sleeps (sg_used overtaking)
    (spawned 3 (fun h => call (linux_os (A := unit) any_sense (friendly_sg (queueing green_target)) 30000) h (green_cmd h))) (rounds 3) s' gs' /\
  gs' 0%nat = Over (Threw (EIO 0)) /\ gs' 1%nat = Over (Threw (EIO 0)) /\
  gs' 2%nat = Over (green_out 2 (Answer 0 0 0 [4; 20] [112; 0; 5])).
Proof.
  pose (l := [(nth_label green_cmd 2, Answer 0 0 0 [4; 20] [112; 0; 5]); (nth_label green_cmd 0, Answer 2 0 0 [5; 18] [112; 0; 5]);
     (nth_label green_cmd 1, Answer 0 0 0 [6; 19] [112; 0; 5])]).
  assert (H : handed_over green_target (fun _ => True) (all_sent green_cmd 3 (quiet overtaking 4)) l (Queue [] 7 [] [])).
  { eapply ho_next; [reflexivity|exact Logic.I|]. eapply ho_next; [reflexivity|exact Logic.I|]. eapply ho_next; [reflexivity|exact Logic.I|]. constructor. }
  destruct (C97_linux_rounds Z unit any_sense green_target 30000 3 green_cmd (sg_used overtaking) overtaking 4 l _
    (proj1 green_clear) (fun h _ => green_fits h) (sg_used_unused _) ltac:(cbn; lia) H eq_refl) as (s' & gs' & R & G).
  exists s', gs'. split; [exact R|].
  split; [|split].
  - destruct (G 0%nat) as (j & a & N & ->); [lia|]. destruct j as [|[|[|j]]]; [discriminate N|reflexivity|discriminate N|destruct j; discriminate N].
  - destruct (G 1%nat) as (j & a & N & ->); [lia|]. destruct j as [|[|[|j]]]; [discriminate N|discriminate N|reflexivity|destruct j; discriminate N].
  - destruct (G 2%nat) as (j & a & N & ->); [lia|]. destruct j as [|[|[|j]]]; [|discriminate N|discriminate N|destruct j; discriminate N].
    inversion N; subst. reflexivity.
Qed.

(** Windows: the second of three greenlets starts first and ends last. *)
Definition win_used : executer spt (win_world (Z * nat)) := Executer [] 1 3 [(9%nat, RespData None)] (WinWorld [[5]] [] (4, 2%nat) []).
Lemma win_used_unused : win_unused 3 4 win_used.
Proof.
  split; [reflexivity|]. split; [cbn; lia|]. split; [reflexivity|]. split; [reflexivity|]. intros h Hh [F|[]]. cbn in F. lia.
Qed.
Definition win_out (h : nat) (a : answer) : outcome (executer spt (win_world (Z * nat))) (dval (wire unit unit)) := user_sees (win_expected (green_cmd h) a).
Example C97_windows_example : exists s' gs',
  greenlets win_sleeps win_used (spawned 3 (fun h => call (win_os (A := unit) any_sense (friendly_win (honest_win green_target))) h (green_cmd h)))
    [1; 0; 0; 2; 2; 1]%nat s' gs' /\
  gs' 0%nat = Over (win_out 0 (Answer 2 0 0 [5; 18] [112; 0; 5])) /\
  gs' 1%nat = Over (win_out 1 (Answer 0 0 0 [4; 19] [112; 0; 5])) /\
  gs' 2%nat = Over (win_out 2 (Answer 0 0 0 [6; 20] [112; 0; 5])).
Proof.
  destruct (C97_windows_runs Z unit any_sense green_target 3 green_cmd win_used 4 [1; 0; 0; 2; 2; 1]%nat
    (proj2 green_clear) (fun h _ => green_win_fits h) win_used_unused ltac:(cbn; lia) ltac:(intros; reflexivity)) as (s' & gs' & R).
  { intros h Hh. destruct h as [|[|[|h]]]; cbn; [lia|lia|lia|]. cbn in Hh. exfalso. lia. }
  exists s', gs'. split; [exact R|].
  destruct (C97_windows Z unit any_sense green_target 3 green_cmd win_used 4 _ s' gs'
    (proj2 green_clear) (fun h _ => green_win_fits h) win_used_unused ltac:(cbn; lia) R) as [_ G].
  split; [|split]; [specialize (G 0%nat)|specialize (G 1%nat)|specialize (G 2%nat)]; specialize (G ltac:(lia));
    (destruct (gs' _) as [c|o]; [destruct G as [G _]; cbn in G; lia|]; destruct G as (a & Ha & -> & _); cbn in Ha;
     destruct Ha as [Ha|[Ha|[Ha|[]]]]; inversion Ha; subst; reflexivity).
Qed.

(** SG_IO: two greenlets that send before either of them looks: the first raises AttributeError
    though its command has been carried out, the second has its answer.  One after the other both
    succeed. *)
Definition ioctl_used : executer sgio (linux_world (sg_state Z * nat)) := Executer [] 1 2 [] (LinuxWorld [] ((7, []), 0%nat) None).
Lemma ioctl_used_unused : ioctl_unused 2 7 ioctl_used.
Proof. split; [reflexivity|]. split; [cbn; lia|]. split; [cbn; lia|]. split; [reflexivity|]. intros h Hh []. Qed.
Definition ioctl_out (h : nat) (a : answer) : outcome (executer sgio (linux_world (sg_state Z * nat))) (dval (wire (option sg_hdr) unit)) :=
  user_sees (RespData (data_wanted (green_cmd h) (a_data a))).
Theorem C97_sg_io_overwritten_refuted : exists s' gs',
  greenlets linux_sleeps ioctl_used (spawned 2 (fun h => call (linux_ioctl_os (A := unit) any_sense (friendly_sg (honest green_target)) 3000) h (green_cmd h)))
    [0; 1; 0; 1]%nat s' gs' /\
  gs' 0%nat = Over (Threw EAttribute) /\ gs' 1%nat = Over (ioctl_out 1 (Answer 0 0 0 [8; 19] [])).
Proof.
  destruct (C97_sg_io_runs Z unit any_sense green_target 3000 2 green_cmd ioctl_used 7 [0; 1; 0; 1]%nat
    (fun h _ => green_fits h) ioctl_used_unused ltac:(cbn; lia)) as (s' & gs' & R).
  { intros h Hh. destruct h as [|[|h]]; cbn; [lia|lia|]. cbn in Hh. exfalso. lia. }
  exists s', gs'. split; [exact R|].
  destruct (C97_sg_io Z unit any_sense green_target 3000 2 green_cmd ioctl_used 7 _ s' gs'
    (fun h _ => green_fits h) ioctl_used_unused ltac:(cbn; lia) R) as [_ G].
  split.
  - specialize (G 0%nat ltac:(lia)). destruct (gs' 0%nat) as [c|o]; [destruct G as [G _]; cbn in G; lia|]. destruct G as [_ G]. cbn in G. rewrite G. reflexivity.
  - specialize (G 1%nat ltac:(lia)). destruct (gs' 1%nat) as [c|o]; [destruct G as [G _]; cbn in G; lia|]. destruct G as [_ G].
    change (existsb (Nat.eqb 1) (taken [] [] None [0; 1; 0; 1]%nat)) with true in G. cbn match in G. destruct G as (a & Ha & ->). cbn in Ha.
    destruct Ha as [Ha|[Ha|[]]]; inversion Ha; subst; reflexivity.
Qed.
Example C97_sg_io_example : taken [] [] None [1; 1; 0; 2; 3; 2; 0; 3]%nat = [3; 1]%nat.
Proof. reflexivity. Qed.
Example C97_alone_example : exists k gs',
  greenlets linux_sleeps ioctl_used (spawned 1 (fun _ => Gen (fun _ s => (s, Yield (YVal (VData (DInt 5))) gen_end)))) (repeat 0%nat k) ioctl_used gs' /\
  gs' 0%nat = Over (D := dval (wire (option sg_hdr) unit)) (Returned (RVal (VData (DInt 5)))).
Proof. apply C97_alone. exists 3%nat. intros n Hn. destruct n as [|[|[|n]]]; try lia. reflexivity. Qed.

Print Assumptions C97_alone.
Print Assumptions C97_schedule_decides.
Print Assumptions C97_linux_any_schedule.
Print Assumptions C97_linux_rounds.
Print Assumptions C97_linux_in_order.
Print Assumptions C97_windows.
Print Assumptions C97_sg_io.
Print Assumptions C97_windows_runs.
Print Assumptions C97_sg_io_runs.
Print Assumptions C97_linux_overtaken_refuted.
Print Assumptions C97_sg_io_overwritten_refuted.
