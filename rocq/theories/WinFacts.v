(** Lemmas on the Windows layer. *)
From Coq Require Import ZArith List Bool Lia.
From Verif Require Import Base BaseFacts Gen SpecGen Executer SpecCall ExecFacts ExecGenFacts ExecStepFacts
  OsCommon OsLinux OsSolaris OsAix OsWin32 SpecSg SpecDrivers ExampleGens OsFacts LinuxFacts SolarisFacts AixFacts.
Import ListNotations.
Open Scope Z_scope.

Lemma pop_app : forall X (l : list X) x, pop_last (l ++ [x]) = Some (l, x).
Proof. intros. unfold pop_last. rewrite rev_app_distr. cbn. rewrite rev_involutive. reflexivity. Qed.

(** ** Request blocks *)
Lemma spt_long : forall c h, 16 < zlen (command_of c) -> spt_create c h = Err EIndex.
Proof.
  intros c h H. unfold spt_create. destruct (Nat.ltb_spec 16 (length (command_of c))); [reflexivity|].
  unfold zlen in H. lia.
Qed.

Lemma firstn_zeros : forall k n, (k <= n)%nat -> firstn k (zeros n) = zeros k.
Proof. unfold zeros. induction k; intros [|n] H; simpl in *; try lia; auto. f_equal. apply IHk. lia. Qed.

Lemma spt_block : forall c h, win_fits c ->
  exists h' q b, spt_create c h = Ok (h', q, b) /\
  firstn (length h) h' = h /\
  CdbLength q = zlen (command_of c) /\ Cdb q = command_of c ++ zeros (16 - length (command_of c)) /\
  SenseInfoLength q = 255 /\ spt_sense q = zeros 255 /\ ScsiStatus q = 0 /\ TimeOutValue q = 10 /\
  DataBuffer q = b /\
  match c with
  | ReadCmd _ n =>
    if 0 <? n
    then DataIn q = 1 /\ DataTransferLength q = n /\
         exists p, b = Some p /\ nth_error h' p = Some (zeros (Z.to_nat n))
    else DataIn q = 2 /\ DataTransferLength q = 0 /\ b = None
  | WriteCmd _ data =>
    if 0 <? zlen data
    then DataIn q = 0 /\ DataTransferLength q = zlen data /\
         exists p, b = Some p /\ nth_error h' p = Some data
    else DataIn q = 2 /\ DataTransferLength q = 0 /\ b = None
  end.
Proof.
  intros c h [Hf1 Hf2]. unfold spt_create.
  destruct (Nat.ltb_spec 16 (length (command_of c))); [unfold zlen in Hf1; lia|].
  assert (Hl : c_ubyte (zlen (command_of c)) = zlen (command_of c)) by (apply c_ubyte_small; unfold zlen in *; lia).
  assert (Hc : firstn 16 (command_of c ++ zeros 16) = command_of c ++ zeros (16 - length (command_of c))).
  { rewrite firstn_app, firstn_all2 by lia. f_equal. apply firstn_zeros. lia. }
  rewrite Hl, Hc. unfold alloc.
  destruct c as [cdb n|cdb data]; cbn [command_of] in *.
  - destruct (0 <? n) eqn:En; eexists; eexists; eexists; (split; [reflexivity|]).
    + apply Z.ltb_lt in En.
      split; [rewrite firstn_app, Nat.sub_diag, firstn_all, firstn_O, app_nil_r; reflexivity|].
      cbn. repeat (split; [reflexivity|]). split; [apply c_uint_small; lia|].
      eexists. split; [reflexivity|apply nth_new].
    + split; [apply firstn_all|]. cbn. repeat (split; [reflexivity|]). reflexivity.
  - destruct (0 <? zlen data) eqn:En; eexists; eexists; eexists; (split; [reflexivity|]).
    + apply Z.ltb_lt in En.
      split; [rewrite firstn_app, Nat.sub_diag, firstn_all, firstn_O, app_nil_r; reflexivity|].
      cbn. repeat (split; [reflexivity|]). split; [apply c_uint_small; lia|].
      eexists. split; [reflexivity|apply nth_new].
    + split; [apply firstn_all|]. cbn. repeat (split; [reflexivity|]). reflexivity.
Qed.

Section Win.
Context {D A : Type}.
Context (sense_of : bytes -> result unit) (drv : win_driver D).
Notation ex := (executer spt (win_world D)).
Notation os := (win_os (A := A) sense_of drv).
Notation aos := (win_async_os (A := A) sense_of drv).

Lemma win_receive_evaluates : forall (s : ex) rest r rp pid p,
  incoming_packets (world s) = rest ++ [r] -> win_handle sense_of r (popped (world s) rest) = Ok (rp, pid) ->
  evaluates (win_receive (A := A) sense_of) (Send VNone) p s (with_world s (popped (world s) rest))
    (CallReturns (VData (DPair rp pid)) true).
Proof.
  intros s rest r rp pid p Hi Hh.
  eapply ev_value; [|apply vdata_not_exn|].
  - cbn. rewrite Hi, pop_app. fold (popped (world s) rest). rewrite Hh. reflexivity.
  - apply ev_finish; [reflexivity|apply vdata_not_exn].
Qed.
Lemma win_receive_raises : forall (s : ex) rest r e p,
  incoming_packets (world s) = rest ++ [r] -> win_handle sense_of r (popped (world s) rest) = Err e ->
  evaluates (win_receive (A := A) sense_of) (Send VNone) p s (with_world s (popped (world s) rest)) (CallRaises e).
Proof.
  intros s rest r e p Hi Hh. apply ev_raise. cbn. rewrite Hi, pop_app. fold (popped (world s) rest).
  rewrite Hh. reflexivity.
Qed.
Lemma win_receive_nothing : forall (s : ex) p, incoming_packets (world s) = [] ->
  evaluates (win_receive (A := A) sense_of) (Send VNone) p s s (CallRaises EIndex).
Proof. intros s p Hi. apply ev_raise. cbn. rewrite Hi. reflexivity. Qed.

Lemma win_handle_spec : forall (w : win_world D) r q,
  win_intact w r q -> (ScsiStatus q = 2 -> sense_of (spt_sense q) = Ok tt) ->
  win_handle sense_of r w = Ok (
    if ScsiStatus q =? 0
    then RespData (if (DataIn q =? 1) && negb (DataTransferLength q =? 0)
                   then match spt_data r with
                        | Some a => option_map (firstn (Z.to_nat (DataTransferLength q))) (nth_error (w_heap w) a)
                        | None => None
                        end
                   else None)
    else if ScsiStatus q =? 2 then RespExn (EAsiCheckCondition (spt_sense q))
    else RespExn EAsiSCSI, packet_id r).
Proof.
  intros w r q [Hq [Hi1 Hi2]] Hs. unfold win_handle, SCSISTAT_CHECK_CONDITION, SCSI_IOCTL_DATA_IN. rewrite Hq.
  destruct (Z.eqb_spec (ScsiStatus q) 0) as [E|E]; cbn [negb].
  - destruct (Z.eqb_spec (DataIn q) 1) as [E1|E1]; cbn [andb]; [|reflexivity].
    destruct (DataTransferLength q =? 0); cbn [negb]; [reflexivity|].
    specialize (Hi2 E1). destruct (spt_data r) as [a|]; [|congruence]. specialize (Hi1 a eq_refl).
    unfold raw_of. destruct (nth_error (w_heap w) a) eqn:E2; [reflexivity|]. apply nth_error_None in E2. lia.
  - destruct (Z.eqb_spec (ScsiStatus q) 2) as [E1|E1]; [|reflexivity].
    unfold check_condition. rewrite Hs by assumption. reflexivity.
Qed.

Theorem win_classification : forall (s : ex) rest r q,
  incoming_packets (world s) = rest ++ [r] -> win_intact (world s) r q -> sense_of (spt_sense q) = Ok tt ->
  exists rp, evaluates (win_receive (A := A) sense_of) (Send VNone) false s (with_world s (popped (world s) rest))
      (CallReturns (VData (DPair rp (packet_id r))) true) /\
    (rp = RespExn (EAsiCheckCondition (spt_sense q)) <-> ScsiStatus q = 2) /\
    ((exists x, rp = RespData x) <-> ScsiStatus q = 0) /\
    (rp = RespExn EAsiSCSI <-> ScsiStatus q <> 0 /\ ScsiStatus q <> 2) /\
    (forall x, rp = RespData x ->
       if (DataIn q =? 1) && negb (DataTransferLength q =? 0)
       then exists p b, spt_data r = Some p /\ nth_error (w_heap (world s)) p = Some b /\
              x = Some (firstn (Z.to_nat (DataTransferLength q)) b)
       else x = None).
Proof.
  intros s rest r q Hi Hint Hs.
  assert (Hint' : win_intact (popped (world s) rest) r q) by exact Hint.
  pose proof (win_handle_spec _ r q Hint' (fun _ => Hs)) as Hh.
  destruct Hint as [Hq [Hi1 Hi2]].
  eexists. split; [eapply win_receive_evaluates; eauto|]. clear Hh.
  remember ((DataIn q =? 1) && negb (DataTransferLength q =? 0)) as cond eqn:E4.
  destruct (Z.eqb_spec (ScsiStatus q) 0) as [E0|E0].
  - split; [split; [discriminate|intros Hx; rewrite E0 in Hx; discriminate]|].
    split; [split; [auto|eauto]|]. split; [split; [discriminate|intros [Hx _]; contradiction]|].
    intros x Hx. injection Hx as Hx. rewrite <- Hx. clear Hx x.
    destruct cond; [|reflexivity]. symmetry in E4. apply andb_prop in E4. destruct E4 as [E4 _].
    apply Z.eqb_eq in E4.
    specialize (Hi2 E4). destruct (spt_data r) as [a|]; [|congruence]. specialize (Hi1 a eq_refl).
    cbn [popped w_heap].
    destruct (nth_error (w_heap (world s)) a) as [bb|] eqn:E5; [exists a, bb; auto|]. apply nth_error_None in E5. lia.
  - destruct (Z.eqb_spec (ScsiStatus q) 2) as [E1|E1].
    + split; [tauto|]. split; [split; [intros [x Hx]; discriminate|contradiction]|].
      split; [split; [discriminate|tauto]|]. intros; discriminate.
    + split; [split; [discriminate|contradiction]|].
      split; [split; [intros [x Hx]; discriminate|contradiction]|].
      split; [tauto|]. intros; discriminate.
Qed.

(** ** Sending *)
Definition controlled (w : win_world D) (r : spt) (h : heap) (d : D) (q : spt_hdr) : win_world D :=
  WinWorld h (put_obj (spt_obj r) q (w_objs w)) d (incoming_packets w).
Definition appended (w : win_world D) (r : spt) : win_world D :=
  WinWorld (w_heap w) (w_objs w) (w_dev w) (incoming_packets w ++ [r]).

Theorem win_send_spec : forall (s : ex) r q0 h d q res,
  nth_error (w_objs (world s)) (spt_obj r) = Some q0 ->
  dev_control drv q0 (w_heap (world s)) (w_dev (world s)) = (h, d, q, res) ->
  match res with
  | None => evaluates (os_send os r) (Send VNone) false s
              (with_world s (controlled (world s) r h d q)) (CallRaises EAsiOS)
  | Some n => evaluates (os_send os r) (Send VNone) false s
              (with_world s (appended (controlled (world s) r h d q) r)) (CallReturns (VData (DInt n)) true)
  end.
Proof.
  intros s r q0 h d q res Hq Hd. destruct res as [n|].
  - eapply ev_value; [cbn; rewrite Hq, Hd; reflexivity|apply vdata_not_exn|].
    apply ev_finish; [reflexivity|apply vdata_not_exn].
  - apply ev_raise. cbn. rewrite Hq, Hd. reflexivity.
Qed.

(** Over an asynchronous handle: pending. *)
Theorem win_async_send : forall (s : ex) r q0 h d q h2 d2 q2 ok n,
  nth_error (w_objs (world s)) (spt_obj r) = Some q0 ->
  dev_start drv q0 (w_heap (world s)) (w_dev (world s)) = (h, d, q, (false, 997)) ->
  dev_finish drv q h d = (h2, d2, q2, (ok, n)) ->
  evaluates (os_send aos r) (Send VNone) false s
    (with_world s (appended (controlled (controlled (world s) r h d q) r h2 d2 q2) r))
    (CallReturns (VData (DInt n)) false).
Proof.
  intros s r q0 h d q h2 d2 q2 ok n Hq Hs Hf.
  assert (Hlt : (spt_obj r < length (w_objs (world s)))%nat) by (apply nth_error_Some; congruence).
  eapply ev_call; [reflexivity| |].
  - eapply ev_token.
    + cbn. rewrite Hq, Hs. reflexivity.
    + unfold win_token. cbn [world with_world w_objs w_heap w_dev incoming_packets].
      rewrite put_obj_eq by auto. rewrite Hf. reflexivity.
    + apply vdata_not_exn.
    + apply ev_finish; [reflexivity|apply vdata_not_exn].
  - apply ev_finish; [reflexivity|apply vdata_not_exn].
Qed.

(** ... completed at once, or failed. *)
Theorem win_async_immediate : forall (s : ex) r q0 h d q api_result last_error,
  nth_error (w_objs (world s)) (spt_obj r) = Some q0 ->
  dev_start drv q0 (w_heap (world s)) (w_dev (world s)) = (h, d, q, (api_result, last_error)) ->
  api_result = true \/ last_error <> 997 ->
  evaluates (os_send aos r) (Send VNone) false s
    (with_world s (controlled (world s) r h d q)) (CallRaises EAsiOS).
Proof.
  intros s r q0 h d q ar le Hq Hs Hx.
  eapply ev_call_raise; [reflexivity| |].
  - apply ev_raise. cbn. rewrite Hq, Hs. unfold ERROR_IO_PENDING.
    replace (negb ar && (le =? 997)) with false; [reflexivity|].
    symmetry. destruct Hx as [Hx|Hx]; [rewrite Hx; reflexivity|].
    destruct (Z.eqb_spec le 997); [contradiction|]. apply andb_false_r.
  - apply ev_raise. reflexivity.
Qed.

Lemma win_receive_only_world : only_world (win_receive (A := A) (D := D) sense_of).
Proof.
  apply ow_step. intros [v|e] s; [|apply same_books_refl]. cbn.
  destruct (pop_last (incoming_packets (world s))) as [[rest r]|]; [|apply same_books_refl].
  destruct (win_handle sense_of r _) as [[rp pid]|e]; [|apply same_books_world].
  split; [apply same_books_world|apply gen_end_only_world].
Qed.
Lemma win_append_only_world : forall r, only_world (win_send_append (A := A) (D := D) r).
Proof. intros. apply ow_step. intros [v|e] s; [apply same_books_world|apply same_books_refl]. Qed.
Lemma win_prepare_books : forall c idx (s : ex), same_books s (fst (win_prepare c idx s)).
Proof.
  intros c idx s. unfold win_prepare. destruct (spt_create c (w_heap (world s))) as [[[h q] b]|e];
    [apply same_books_world|apply same_books_refl].
Qed.
Theorem win_only_world : os_only_world os.
Proof.
  split; [apply win_prepare_books|]. split; [|apply win_receive_only_world].
  intros r. apply ow_step. intros [v|e] s; [|apply same_books_refl]. cbn.
  destruct (nth_error (w_objs (world s)) (spt_obj r)) as [q0|]; [|apply same_books_refl].
  destruct (dev_control drv q0 (w_heap (world s)) (w_dev (world s))) as [[[h d] q] [n|]]; [|apply same_books_world].
  split; [apply same_books_world|apply win_append_only_world].
Qed.
Theorem win_async_only_world : os_only_world aos.
Proof.
  split; [apply win_prepare_books|]. split; [|apply win_receive_only_world].
  intros r. apply ow_step. intros [v|e] s; [|apply same_books_refl]. cbn.
  split; [apply same_books_refl|]. split; [|apply win_append_only_world].
  apply ow_step. intros [v1|e1] s1; [|apply same_books_refl]. cbn.
  destruct (nth_error (w_objs (world s1)) (spt_obj r)) as [q0|]; [|apply same_books_refl].
  destruct (dev_start drv q0 (w_heap (world s1)) (w_dev (world s1))) as [[[h d] q] [ar le]].
  destruct (negb ar && (le =? ERROR_IO_PENDING)); [|apply same_books_world].
  split; [apply same_books_world|]. split; [|apply gen_end_only_world].
  intros s2. unfold win_token.
  destruct (nth_error (w_objs (world s2)) (spt_obj r)) as [q1|]; [|apply same_books_refl].
  destruct (dev_finish drv q1 (w_heap (world s2)) (w_dev (world s2))) as [[[h2 d2] q2] [ok n]].
  apply same_books_world.
Qed.

(** ** From the command to the verdict, for every driver *)
Lemma win_prepared : forall (s : ex) c w h q b,
  world s = w -> spt_create c (w_heap w) = Ok (h, q, b) ->
  win_prepare c (packet_index s) (at_prepare s) =
    (with_world (at_prepare s) (WinWorld h (w_objs w ++ [q]) (w_dev w) (incoming_packets w)),
     Ok (Spt (length (w_objs w)) (packet_index s) b)).
Proof.
  intros s c w h q b Hw Hc. unfold win_prepare, at_prepare.
  cbn [world with_index]. rewrite Hw, Hc. reflexivity.
Qed.

Theorem win_long_cdb : forall (s : ex) me c, zlen (pending s) < max_queue_size s ->
  16 < zlen (command_of c) ->
  exists s', call_evaluates (call os me c) s s' (CallRaises EIndex) /\
    world s' = world s /\ pending s' = pending s /\ cb_log s' = cb_log s.
Proof.
  intros s me c Hroom Hl. exists (at_prepare s). split; [|cbn; auto].
  eapply ev_call_raise; [reflexivity| |apply ev_raise; reflexivity].
  apply ev_raise. cbn. unfold send_begin, next_packet_index.
  destruct (Z.leb_spec (max_queue_size s) (zlen (pending s))); [lia|].
  cbn. unfold win_prepare. rewrite spt_long by assumption. reflexivity.
Qed.

Theorem win_control_fails : forall (s : ex) me c h1 q1 b h d q,
  zlen (pending s) < max_queue_size s -> dict_get (packet_index s) (pending s) = None ->
  spt_create c (w_heap (world s)) = Ok (h1, q1, b) ->
  dev_control drv q1 h1 (w_dev (world s)) = (h, d, q, None) ->
  exists s', call_evaluates (call os me c) s s' (CallRaises EAsiOS) /\
    pending s' = pending s /\ cb_log s' = cb_log s.
Proof.
  intros s me c h1 q1 b h d q Hroom Hfree Hcr Hd.
  pose proof (win_prepared s c _ _ _ _ eq_refl Hcr) as Hpr.
  set (r := Spt (length (w_objs (world s))) (packet_index s) b) in *.
  set (w0 := WinWorld h1 (w_objs (world s) ++ [q1]) (w_dev (world s)) (incoming_packets (world s))) in *.
  pose proof (win_send_spec (with_world (at_send s r (Some me)) w0) r q1 h d q None (nth_new _ _ _) Hd) as X.
  exact (call_send_error os c me s r w0 _ _ Hroom Hpr X Hfree).
Qed.

(** DeviceIoControl over an asynchronous handle that completes at once: the device has
    executed the command, the caller gets an error. *)
Theorem win_async_immediate_call : forall (s : ex) me c h1 q1 b h d q api_result last_error,
  zlen (pending s) < max_queue_size s -> dict_get (packet_index s) (pending s) = None ->
  spt_create c (w_heap (world s)) = Ok (h1, q1, b) ->
  dev_start drv q1 h1 (w_dev (world s)) = (h, d, q, (api_result, last_error)) ->
  api_result = true \/ last_error <> 997 ->
  exists s', call_evaluates (call aos me c) s s' (CallRaises EAsiOS) /\
    pending s' = pending s /\ cb_log s' = cb_log s.
Proof.
  intros s me c h1 q1 b h d q ar le Hroom Hfree Hcr Hd Hx.
  pose proof (win_prepared s c _ _ _ _ eq_refl Hcr) as Hpr.
  set (r := Spt (length (w_objs (world s))) (packet_index s) b) in *.
  set (w0 := WinWorld h1 (w_objs (world s) ++ [q1]) (w_dev (world s)) (incoming_packets (world s))) in *.
  pose proof (win_async_immediate (with_world (at_send s r (Some me)) w0) r q1 h d q ar le (nth_new _ _ _) Hd Hx) as X.
  exact (call_send_error aos c me s r w0 _ _ Hroom Hpr X Hfree).
Qed.

(** A transfer that fails after it was started is not noticed, if the driver left the
    SCSI status zero. *)
Theorem win_async_failure_unnoticed : forall (s : ex) me c h1 q1 b h d q h2 d2 q2 n,
  zlen (pending s) < max_queue_size s -> dict_get (packet_index s) (pending s) = None ->
  ~ In me (map fst (cb_log s)) ->
  spt_create c (w_heap (world s)) = Ok (h1, q1, b) ->
  dev_start drv q1 h1 (w_dev (world s)) = (h, d, q, (false, 997)) ->
  dev_finish drv q h d = (h2, d2, q2, (false, n)) ->
  ScsiStatus q2 = 0 -> (DataIn q2 = 1 -> b <> None) -> (forall a, b = Some a -> (a < length h2)%nat) ->
  exists s' x, call_evaluates (call aos me c) s s' (outcome_of (RespData x)) /\
    pending s' = pending s /\ cb_log s' = cb_log s ++ [(me, RespData x)].
Proof.
  intros s me c h1 q1 b h d q h2 d2 q2 n Hroom Hfree Hl Hcr Hst Hfi Hz Hb1 Hb2.
  pose proof (win_prepared s c _ _ _ _ eq_refl Hcr) as Hpr.
  set (r := Spt (length (w_objs (world s))) (packet_index s) b) in *.
  set (w0 := WinWorld h1 (w_objs (world s) ++ [q1]) (w_dev (world s)) (incoming_packets (world s))) in *.
  pose proof (win_async_send (with_world (at_send s r (Some me)) w0) r q1 h d q h2 d2 q2 false n (nth_new _ _ _) Hst Hfi) as X.
  match type of X with evaluates _ _ _ _ (with_world _ ?y) _ => set (w := y) in * end.
  set (w' := popped w (incoming_packets (world s))).
  assert (Hint : win_intact w' r q2).
  { split; [|split; [exact Hb2|exact Hb1]].
    cbn. apply put_obj_eq. cbn.
    assert (Hx : forall (l : list spt_hdr) k x, length (put_obj k x l) = length l).
    { induction l as [|y l IH]; intros [|k] x; simpl; auto. }
    rewrite Hx, app_length. cbn. lia. }
  pose proof (win_handle_spec w' r q2 Hint) as Hh. rewrite Hz in Hh. cbn [Z.eqb] in Hh.
  match type of Hh with _ -> win_handle _ _ _ = Ok (RespData ?x, _) =>
    assert (Hh3 : win_handle sense_of r w' = Ok (RespData x, packet_id r))
      by (apply Hh; discriminate); set (y := x) in *
  end.
  eexists. exists y. split.
  - eapply (call_answered aos c me s r w0 w (VData (DInt n)) false w' (RespData y) true); auto.
    apply (win_receive_evaluates (with_world (at_send s r (Some me)) w) (incoming_packets (world s)) r); auto.
  - cbn. auto.
Qed.
End Win.

(** ** The whole path over a device *)
Section WinCall.
Context {T A : Type}.
Context (sense_of : bytes -> result unit) (tgt : target T).
Notation ex := (executer spt (win_world T)).
Notation os := (win_os (A := A) sense_of (honest_win tgt)).
Notation aos := (win_async_os (A := A) sense_of (honest_win tgt)).

Lemma spt_described : forall c h h' q b, spt_create c h = Ok (h', q, b) -> win_fits c ->
  firstn (Z.to_nat (CdbLength q)) (Cdb q) = command_of c /\
  spt_data_out q h' = data_out c /\
  (forall a, spt_sense (spt_done q a) = pad 255 (a_sense a)) /\
  (forall a p, b = Some p -> (p < length (spt_mem q a h'))%nat) /\
  (DataIn q = 1 -> b <> None) /\
  (forall a, (if (DataIn q =? 1) && negb (DataTransferLength (spt_done q a) =? 0)
     then match b with
          | Some p => option_map (firstn (Z.to_nat (DataTransferLength (spt_done q a)))) (nth_error (spt_mem q a h') p)
          | None => None end
     else None) = win_data c (a_data a)).
Proof.
  intros c h h' q b H Hf.
  destruct (spt_block c h Hf) as (h'' & q'' & b'' & E & _ & E1 & E2 & E3 & E4 & E5 & _ & E6 & E7).
  rewrite H in E. injection E as X1 X2 X3. rewrite <- X3 in E6, E7. rewrite <- X2 in E1, E2, E3, E4, E5, E6, E7. rewrite <- X1 in E7. clear h'' q'' b'' X1 X2 X3.
  assert (Hlen : forall a m, length (spt_mem q a m) = length m).
  { intros. unfold spt_mem. destruct (spt_reads q); [apply poke_length|reflexivity]. }
  split. { rewrite E1, E2. unfold zlen. rewrite Nat2Z.id, firstn_app, Nat.sub_diag, firstn_all, firstn_O, app_nil_r. reflexivity. }
  split. { unfold spt_data_out. rewrite E6. destruct c as [cdb n|cdb data]; cbn [data_out].
    - destruct (0 <? n); destruct E7 as [E7 _]; rewrite E7; reflexivity.
    - destruct (0 <? zlen data) eqn:En.
      + destruct E7 as (E7 & E8 & p & E9 & E10). rewrite E7, E8, E9. cbn. unfold peek. rewrite E10.
        unfold zlen. rewrite Nat2Z.id. apply firstn_all.
      + destruct E7 as (E7 & _). rewrite E7. cbn. apply Z.ltb_ge in En. unfold zlen in En.
        destruct data; [reflexivity|]. cbn in En. lia. }
  split. { intros a. cbn [spt_sense spt_done]. rewrite E3, E4. apply overwrite_zeros. }
  split. { intros a p Hp. rewrite Hlen. destruct c as [cdb n|cdb data].
    - destruct (0 <? n); destruct E7 as (_ & _ & E7).
      + destruct E7 as (p' & X1 & X2). rewrite Hp in X1. inversion X1; subst. apply nth_error_Some. congruence.
      + rewrite E7 in Hp. discriminate.
    - destruct (0 <? zlen data); destruct E7 as (_ & _ & E7).
      + destruct E7 as (p' & X1 & X2). rewrite Hp in X1. inversion X1; subst. apply nth_error_Some. congruence.
      + rewrite E7 in Hp. discriminate. }
  split. { intros Hd Hb. destruct c as [cdb n|cdb data].
    - destruct (0 <? n); destruct E7 as (X1 & _ & X2); [|rewrite Hd in X1; discriminate].
      destruct X2 as (p & X2 & _). congruence.
    - destruct (0 <? zlen data); destruct E7 as (X1 & _); rewrite Hd in X1; discriminate. }
  intros a. cbn [DataTransferLength spt_done]. unfold spt_reads.
  destruct c as [cdb n|cdb data]; cbn [win_data].
  - destruct (0 <? n) eqn:En.
    + destruct E7 as (E7 & E8 & p & E9 & E10). rewrite E7. rewrite Z.eqb_refl. cbn [andb]. cbv iota.
      rewrite E8. apply Z.ltb_lt in En.
      assert (Hz : 0 <= zlen (a_data a)) by (unfold zlen; lia).
      destruct (Z.ltb_spec 0 (zlen (a_data a))) as [Hd|Hd].
      * destruct (Z.eqb_spec (Z.min n (zlen (a_data a))) 0); [lia|]. cbn [negb]. rewrite E9.
        unfold spt_mem, spt_reads. rewrite E7, E6, E9, E8, Z.eqb_refl. cbv iota.
        rewrite (poke_eq _ _ _ _ _ E10), overwrite_zeros. cbn [option_map]. f_equal.
        unfold pad. unfold zlen in *.
        destruct (Z.le_ge_cases n (Z.of_nat (length (a_data a)))) as [Hle|Hge].
        -- rewrite Z.min_l by lia. rewrite firstn_app, firstn_firstn, Nat.min_id, firstn_length.
           replace (Z.to_nat n - Nat.min (Z.to_nat n) (length (a_data a)))%nat with 0%nat by lia.
           rewrite firstn_O, app_nil_r. reflexivity.
        -- rewrite Z.min_r by lia. rewrite Nat2Z.id. rewrite (firstn_all2 (n := Z.to_nat n)) by lia.
           rewrite firstn_app, Nat.sub_diag, firstn_O, app_nil_r. apply firstn_all.
      * destruct (Z.eqb_spec (Z.min n (zlen (a_data a))) 0); [reflexivity|]. lia.
    + destruct E7 as (E7 & _). rewrite E7. reflexivity.
  - destruct (0 <? zlen data); destruct E7 as (E7 & _); rewrite E7; reflexivity.
Qed.

(** What the two variants of sending have in common: the request is prepared as [r], the
    device runs, and the completed structure is last in incoming_packets. *)
Lemma win_verdict : forall (w : win_world T) r c h h1 q a,
  spt_create c h = Ok (h1, q, spt_data r) -> win_fits c ->
  (a_status a = 2 -> sense_of (pad 255 (a_sense a)) = Ok tt) ->
  nth_error (w_objs w) (spt_obj r) = Some (spt_done q a) -> w_heap w = spt_mem q a h1 ->
  win_handle sense_of r w = Ok (win_expected c a, packet_id r).
Proof.
  intros w r c h h1 q a Hcr Hf Hse Hq Hw.
  destruct (spt_described _ _ _ _ _ Hcr Hf) as (_ & _ & E3 & E4 & E5 & E6).
  rewrite (win_handle_spec sense_of w r (spt_done q a)).
  - rewrite E3, Hw. cbn [ScsiStatus DataIn spt_done]. unfold win_expected. rewrite <- (E6 a).
    cbn [DataTransferLength spt_done]. reflexivity.
  - split; [exact Hq|]. split.
    + intros p Hp. rewrite Hw. apply E4. exact Hp.
    + cbn [DataIn spt_done]. exact E5.
  - cbn [ScsiStatus spt_done]. rewrite E3. exact Hse.
Qed.

Theorem win_call : forall (s : ex) me c t h objs inc t' a,
  zlen (pending s) < max_queue_size s -> dict_get (packet_index s) (pending s) = None ->
  ~ In me (map fst (cb_log s)) ->
  world s = WinWorld h objs t inc -> win_fits c -> tgt t (command_of c) (data_out c) = (t', a) ->
  (a_status a = 2 -> sense_of (pad 255 (a_sense a)) = Ok tt) -> a_host a = 0 ->
  exists h' objs', call_evaluates (call os me c) s
    (Executer (pending s) ((packet_index s + 1) mod max_queue_size s) (max_queue_size s)
       (cb_log s ++ [(me, win_expected c a)]) (WinWorld h' objs' t' inc))
    (outcome_of (win_expected c a)).
Proof.
  intros s me c t h objs inc t' a Hroom Hfree Hl Hw Hf Ht Hse Hh0.
  destruct (spt_block c h Hf) as (h1 & q & b & Hcr & _).
  destruct (spt_described _ _ _ _ _ Hcr Hf) as (E1 & E2 & _).
  assert (Hcr2 : spt_create c (w_heap (world s)) = Ok (h1, q, b)) by (rewrite Hw; exact Hcr).
  pose proof (win_prepared s c _ _ _ _ eq_refl Hcr2) as Hpr.
  set (r := Spt (length (w_objs (world s))) (packet_index s) b) in *.
  set (w0 := WinWorld h1 (w_objs (world s) ++ [q]) (w_dev (world s)) (incoming_packets (world s))) in *.
  pose proof (win_send_spec (A := A) sense_of (honest_win tgt) (with_world (at_send s r (Some me)) w0) r q
    (spt_mem q a h1) t' (spt_done q a) (Some (zlen (a_data a))) (nth_new _ _ _)) as X.
  cbv beta iota in X.
  match type of X with ?P -> _ => assert (HP : P) end.
  { cbn [world with_world w_heap w_dev w0]. cbn [dev_control honest_win]. unfold honest_control, spt_run.
    rewrite E1, E2, Hw. cbn [w_dev]. rewrite Ht, Hh0. reflexivity. }
  specialize (X HP). clear HP.
  match type of X with evaluates _ _ _ _ (with_world _ ?y) _ => set (w := y) in * end.
  set (w' := popped w inc).
  exists (spt_mem q a h1), (w_objs w').
  pose proof (call_answered os c me s r w0 w (VData (DInt (zlen (a_data a)))) true w' (win_expected c a) true) as Y.
  assert (Hdev : w' = WinWorld (spt_mem q a h1) (w_objs w') t' inc) by reflexivity.
  rewrite <- Hdev. apply Y; auto.
  apply (win_receive_evaluates sense_of (with_world (at_send s r (Some me)) w) inc r).
  - cbn. rewrite Hw. reflexivity.
  - apply (win_verdict _ r c h h1 q a); auto. cbn. apply put_new.
Qed.

Theorem win_async_call : forall (s : ex) me c t h objs inc t' a,
  zlen (pending s) < max_queue_size s -> dict_get (packet_index s) (pending s) = None ->
  ~ In me (map fst (cb_log s)) ->
  world s = WinWorld h objs t inc -> win_fits c -> tgt t (command_of c) (data_out c) = (t', a) ->
  (a_status a = 2 -> sense_of (pad 255 (a_sense a)) = Ok tt) -> a_host a = 0 ->
  exists h' objs', call_evaluates (call aos me c) s
    (Executer (pending s) ((packet_index s + 1) mod max_queue_size s) (max_queue_size s)
       (cb_log s ++ [(me, win_expected c a)]) (WinWorld h' objs' t' inc))
    (outcome_of (win_expected c a)).
Proof.
  intros s me c t h objs inc t' a Hroom Hfree Hl Hw Hf Ht Hse Hh0.
  destruct (spt_block c h Hf) as (h1 & q & b & Hcr & _).
  destruct (spt_described _ _ _ _ _ Hcr Hf) as (E1 & E2 & _).
  assert (Hcr2 : spt_create c (w_heap (world s)) = Ok (h1, q, b)) by (rewrite Hw; exact Hcr).
  pose proof (win_prepared s c _ _ _ _ eq_refl Hcr2) as Hpr.
  set (r := Spt (length (w_objs (world s))) (packet_index s) b) in *.
  set (w0 := WinWorld h1 (w_objs (world s) ++ [q]) (w_dev (world s)) (incoming_packets (world s))) in *.
  pose proof (win_async_send (A := A) sense_of (honest_win tgt) (with_world (at_send s r (Some me)) w0) r q
    h1 t q (spt_mem q a h1) t' (spt_done q a) true (zlen (a_data a)) (nth_new _ _ _)) as X.
  cbv beta iota in X.
  match type of X with ?P -> ?Q -> _ => assert (HP : P); [|assert (HQ : Q)] end.
  { cbn [world with_world w_heap w_dev w0]. rewrite Hw. reflexivity. }
  { cbn [dev_finish honest_win]. unfold honest_finish, spt_run. rewrite E1, E2, Ht, Hh0. reflexivity. }
  specialize (X HP HQ). clear HP HQ.
  match type of X with evaluates _ _ _ _ (with_world _ ?y) _ => set (w := y) in * end.
  set (w' := popped w inc).
  exists (spt_mem q a h1), (w_objs w').
  pose proof (call_answered aos c me s r w0 w (VData (DInt (zlen (a_data a)))) false w' (win_expected c a) true) as Y.
  assert (Hdev : w' = WinWorld (spt_mem q a h1) (w_objs w') t' inc) by reflexivity.
  rewrite <- Hdev. apply Y; auto.
  apply (win_receive_evaluates sense_of (with_world (at_send s r (Some me)) w) inc r).
  - cbn. rewrite Hw. reflexivity.
  - apply (win_verdict _ r c h h1 q a); auto.
    cbn. apply put_obj_eq.
    assert (Hx : forall (l : list spt_hdr) k x, length (put_obj k x l) = length l).
    { induction l as [|y l IH]; intros [|k] x; simpl; auto. }
    rewrite Hx, app_length. cbn. lia.
Qed.
End WinCall.
