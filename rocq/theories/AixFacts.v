(** Lemmas on the AIX layer. *)
From Coq Require Import ZArith List Bool Lia.
From Verif Require Import Base BaseFacts Gen SpecGen Executer SpecCall ExecFacts ExecGenFacts ExecStepFacts
  OsCommon OsLinux OsSolaris OsAix OsWin32 SpecSg SpecDrivers ExampleGens OsFacts LinuxFacts SolarisFacts.
Import ListNotations.
Open Scope Z_scope.

Lemma put_obj_eq : forall X (l : list X) k x, (k < length l)%nat -> nth_error (put_obj k x l) k = Some x.
Proof. induction l as [|y l IH]; intros [|k] x H; simpl in *; try lia; auto. apply IH; lia. Qed.
Lemma nth_new : forall X (l : list X) x, nth_error (l ++ [x]) (length l) = Some x.
Proof. intros. rewrite nth_error_app2, Nat.sub_diag by lia. reflexivity. Qed.
Lemma put_new : forall X (l : list X) x y, nth_error (put_obj (length l) y (l ++ [x])) (length l) = Some y.
Proof. intros. apply put_obj_eq. rewrite app_length. cbn. lia. Qed.
Lemma land_1 : forall x, negb (Z.land x 1 =? 0) = Z.testbit x 0.
Proof. intros. change 1 with (2 ^ 0). apply land_pow2_testbit. lia. Qed.
Lemma mask_bit1 : forall x, Z.testbit (Z.land x 30) 1 = Z.testbit x 1.
Proof. intros. rewrite Z.land_spec. change (Z.testbit 30 1) with true. apply andb_true_r. Qed.

Section Aix.
Context {D A : Type}.
Context (sense_of : bytes -> result unit) (drv : sc_driver D) (timeout : Z) (use_ctypes : bool).
Notation ex := (executer passthru (aix_world D)).
Notation os := (aix_os (A := A) sense_of drv timeout use_ctypes).

Lemma aix_receive_evaluates : forall (s : ex) b rp pid p,
  x_buffer (world s) = Some b -> aix_handle sense_of b s = Ok (rp, pid) ->
  evaluates (os_receive os) (Send VNone) p s s (CallReturns (VData (DPair rp pid)) true).
Proof.
  intros. eapply ev_value; [simpl; rewrite H; reflexivity|apply vdata_not_exn|].
  eapply ev_value; [simpl; rewrite H0; reflexivity|apply vdata_not_exn|].
  apply ev_finish; [reflexivity|apply vdata_not_exn].
Qed.
Lemma aix_receive_raises : forall (s : ex) b e p,
  x_buffer (world s) = Some b -> aix_handle sense_of b s = Err e ->
  evaluates (os_receive os) (Send VNone) p s s (CallRaises e).
Proof.
  intros. eapply ev_value; [simpl; rewrite H; reflexivity|apply vdata_not_exn|].
  apply ev_raise. simpl; rewrite H0; reflexivity.
Qed.

Lemma aix_handle_spec : forall (s : ex) response r cb q sense,
  dict_get 0 (pending s) = Some (r, cb) -> aix_intact (world s) r q ->
  (status_validity response = 1 -> Z.testbit (scsi_bus_status response) 1 = true ->
     string_at (autosense_buffer_ptr response) 255 (x_heap (world s)) = Ok sense /\ sense_of sense = Ok tt) ->
  aix_handle sense_of response s = Ok (
    if status_validity response =? 0
    then RespData (if Z.testbit (sc_flags q) 0 && negb (data_length q =? 0)
                   then match p_data_buffer r with Some a => nth_error (x_heap (world s)) a | None => None end
                   else None)
    else if (status_validity response =? 1) && Z.testbit (scsi_bus_status response) 1
    then RespExn (EAsiCheckCondition sense)
    else RespExn EAsiSCSI, 0).
Proof.
  intros s response r cb q sense Hg [Hq [Hi1 Hi2]] Hs.
  unfold aix_handle, SC_SCSI_ERROR, SCSI_STATUS_MASK, SCSI_STATUS_CHECK_CONDITION, B_READ.
  destruct (Z.eqb_spec (status_validity response) 0) as [E0|E0]; cbn [negb].
  - unfold get_os_data. rewrite Hg. cbn [option_map fst]. rewrite Hq, land_1.
    destruct (Z.testbit (sc_flags q) 0); cbn [andb]; [|reflexivity].
    destruct (data_length q =? 0); cbn [negb]; [reflexivity|].
    specialize (Hi2 eq_refl). destruct (p_data_buffer r) as [a|]; [|congruence].
    specialize (Hi1 a eq_refl). unfold raw_of.
    destruct (nth_error (x_heap (world s)) a) eqn:E1; [reflexivity|]. apply nth_error_None in E1. lia.
  - destruct (Z.eqb_spec (status_validity response) 1) as [E1|E1]; cbn [andb].
    + rewrite land_2, mask_bit1. destruct (Z.testbit (scsi_bus_status response) 1); [|reflexivity].
      destruct (Hs E1 eq_refl) as [H1 H2]. unfold SENSE_SIZE. rewrite H1. cbn. unfold check_condition. rewrite H2.
      reflexivity.
    + destruct (status_validity response =? SC_ADAPTER_ERROR); reflexivity.
Qed.

Theorem aix_classification : forall (s : ex) response r cb q sense,
  x_buffer (world s) = Some response ->
  dict_get 0 (pending s) = Some (r, cb) -> aix_intact (world s) r q ->
  string_at (autosense_buffer_ptr response) 255 (x_heap (world s)) = Ok sense -> sense_of sense = Ok tt ->
  exists rp, evaluates (os_receive os) (Send VNone) false s s (CallReturns (VData (DPair rp 0)) true) /\
    (rp = RespExn (EAsiCheckCondition sense) <->
       status_validity response = 1 /\ Z.testbit (scsi_bus_status response) 1 = true) /\
    ((exists x, rp = RespData x) <-> status_validity response = 0) /\
    (rp = RespExn EAsiSCSI <->
       status_validity response <> 0 /\
       ~ (status_validity response = 1 /\ Z.testbit (scsi_bus_status response) 1 = true)) /\
    (forall x, rp = RespData x ->
       if Z.testbit (sc_flags q) 0 && negb (data_length q =? 0)
       then exists p b, p_data_buffer r = Some p /\ nth_error (x_heap (world s)) p = Some b /\ x = Some b
       else x = None).
Proof.
  intros s response r cb q sense Hb Hg Hi Hs Hp.
  pose proof (aix_handle_spec s response r cb q sense Hg Hi (fun _ _ => conj Hs Hp)) as Hh.
  destruct Hi as [Hq [Hi1 Hi2]].
  eexists. split; [eapply aix_receive_evaluates; eauto|]. clear Hh.
  remember (Z.testbit (sc_flags q) 0 && negb (data_length q =? 0)) as cond eqn:E4.
  destruct (Z.eqb_spec (status_validity response) 0) as [E0|E0].
  - split; [split; [discriminate|intros [Hx _]; rewrite E0 in Hx; discriminate]|].
    split; [split; [auto|eauto]|]. split; [split; [discriminate|intros [Hx _]; contradiction]|].
    intros x Hx. injection Hx as Hx. rewrite <- Hx. clear Hx x.
    destruct cond; [|reflexivity]. symmetry in E4. apply andb_prop in E4. destruct E4 as [E4 _].
    specialize (Hi2 E4). destruct (p_data_buffer r) as [a|]; [|congruence]. specialize (Hi1 a eq_refl).
    destruct (nth_error (x_heap (world s)) a) eqn:E5; [eauto|]. apply nth_error_None in E5. lia.
  - destruct (Z.eqb_spec (status_validity response) 1) as [E1|E1]; cbn [andb].
    + destruct (Z.testbit (scsi_bus_status response) 1) eqn:E2.
      * split; [tauto|]. split; [split; [intros [x Hx]; discriminate|contradiction]|].
        split; [split; [discriminate|tauto]|]. intros; discriminate.
      * split; [split; [discriminate|intros [_ Hx]; discriminate]|].
        split; [split; [intros [x Hx]; discriminate|contradiction]|].
        split; [split; [intros _; split; [auto|intros [_ Hx]; discriminate]|auto]|]. intros; discriminate.
    + split; [split; [discriminate|intros [Hx _]; contradiction]|].
      split; [split; [intros [x Hx]; discriminate|contradiction]|].
      split; [split; [intros _; split; [auto|intros [Hx _]; contradiction]|auto]|]. intros; discriminate.
Qed.

(** The outcome of sending, for every driver. *)
Theorem aix_send_spec : forall (s : ex) r q0 h d q failed,
  nth_error (x_objs (world s)) (p_obj r) = Some q0 ->
  drv q0 (x_heap (world s)) (x_dev (world s)) = (h, d, q, failed) ->
  let objs := put_obj (p_obj r) q (x_objs (world s)) in
  (use_ctypes = false -> failed = true -> einval_arg q <> 0 \/ status_validity q = 0 ->
     evaluates (os_send os r) (Send VNone) false s
       (with_world s (AixWorld h objs d (x_buffer (world s)))) (CallRaises EAsiOS)) /\
  (use_ctypes = true \/ failed = false \/ (einval_arg q = 0 /\ status_validity q <> 0) ->
     evaluates (os_send os r) (Send VNone) false s
       (with_world s (AixWorld h objs d (Some q))) (CallReturns (VData (DInt 168)) true)).
Proof.
  intros s r q0 h d q failed Hq Hd objs. split.
  - intros Hc Hf He. apply ev_raise. cbn. rewrite Hq, Hd, Hc, Hf. cbn [andb negb].
    destruct (Z.eqb_spec (einval_arg q) 0); cbn [negb]; [|reflexivity].
    destruct He as [He|He]; [contradiction|]. rewrite He. reflexivity.
  - intros Hx.
    assert (E : resume (os_send os r) (Send VNone) s =
      (with_world s (AixWorld h objs d (Some q)), Yield (YVal (VData (DInt 168))) gen_end)).
    { cbn. rewrite Hq, Hd. destruct Hx as [Hx|[Hx|[Hx1 Hx2]]].
      - rewrite Hx. cbn. rewrite andb_false_r. reflexivity.
      - rewrite Hx. reflexivity.
      - rewrite Hx1. cbn. rewrite andb_false_r. destruct (Z.eqb_spec (status_validity q) 0); [contradiction|].
        rewrite andb_false_r. reflexivity. }
    eapply ev_value; [exact E|apply vdata_not_exn|]. apply ev_finish; [reflexivity|apply vdata_not_exn].
Qed.

Theorem aix_only_world : os_only_world os.
Proof.
  split; [|split].
  - intros c idx s. cbn. unfold aix_prepare. destruct (passthru_create c timeout (x_heap (world s))) as [[h q] b].
    apply same_books_world.
  - intros r. apply ow_step. intros [v|e] s; [|apply same_books_refl]. cbn.
    destruct (nth_error (x_objs (world s)) (p_obj r)) as [q0|]; [|apply same_books_refl].
    destruct (drv q0 (x_heap (world s)) (x_dev (world s))) as [[[h d] q] f].
    destruct (f && negb use_ctypes && negb (einval_arg q =? 0)); [apply same_books_world|].
    destruct (f && negb use_ctypes && (status_validity q =? 0)); [apply same_books_world|].
    split; [apply same_books_world|apply gen_end_only_world].
  - apply ow_step. intros [v|e] s; [|apply same_books_refl]. cbn.
    destruct (x_buffer (world s)); [|apply same_books_refl].
    split; [apply same_books_refl|]. apply ow_step. intros [v1|e1] s1; [|apply same_books_refl]. cbn.
    destruct v1 as [| |[b|z|l|rp pid|[raw|a]]]; try apply same_books_refl.
    destruct (aix_handle sense_of raw s1) as [[rp pid]|e1]; [|apply same_books_refl].
    split; [apply same_books_refl|apply gen_end_only_world].
Qed.

(** ** From the command to the verdict, for every driver *)
Lemma aix_prepared : forall (s : ex) c w h q b,
  world s = w -> passthru_create c timeout (x_heap w) = (h, q, b) ->
  os_prepare_to_send os c (packet_index s) (at_prepare s) =
    (with_world (at_prepare s) (AixWorld h (x_objs w ++ [q]) (x_dev w) (x_buffer w)),
     Ok (Passthru (length (x_objs w)) b)).
Proof.
  intros s c w h q b Hw Hc. cbn [os_prepare_to_send aix_os]. unfold aix_prepare, at_prepare.
  cbn [world with_index]. rewrite Hw, Hc. reflexivity.
Qed.

(** With the fcntl ioctl. *)
Theorem aix_ioctl_error : forall (s : ex) me c h1 q1 b h d q,
  use_ctypes = false ->
  zlen (pending s) < max_queue_size s -> dict_get (packet_index s) (pending s) = None ->
  passthru_create c timeout (x_heap (world s)) = (h1, q1, b) ->
  drv q1 h1 (x_dev (world s)) = (h, d, q, true) ->
  einval_arg q <> 0 \/ status_validity q = 0 ->
  exists s', call_evaluates (call os me c) s s' (CallRaises EAsiOS) /\
    pending s' = pending s /\ cb_log s' = cb_log s.
Proof.
  intros s me c h1 q1 b h d q Hc Hroom Hfree Hcr Hd He.
  pose proof (aix_prepared s c _ _ _ _ eq_refl Hcr) as Hpr.
  set (r := Passthru (length (x_objs (world s))) b) in *.
  set (w0 := AixWorld h1 (x_objs (world s) ++ [q1]) (x_dev (world s)) (x_buffer (world s))) in *.
  destruct (aix_send_spec (with_world (at_send s r (Some me)) w0) r q1 h d q true (nth_new _ _ _) Hd) as [X _].
  specialize (X Hc eq_refl He).
  exact (call_send_error os c me s r w0 _ _ Hroom Hpr X Hfree).
Qed.

(** A valid status decides, whether the ioctl failed or not. *)
Theorem aix_status_decides : forall (s : ex) me c h1 q1 b h d q failed sense,
  pending s = [] -> packet_index s = 0 -> 1 <= max_queue_size s -> ~ In me (map fst (cb_log s)) ->
  passthru_create c timeout (x_heap (world s)) = (h1, q1, b) ->
  drv q1 h1 (x_dev (world s)) = (h, d, q, failed) ->
  status_validity q <> 0 -> (use_ctypes = true \/ failed = false \/ einval_arg q = 0) ->
  sc_flags q = sc_flags q1 -> (length h1 <= length h)%nat ->
  string_at (autosense_buffer_ptr q) 255 h = Ok sense -> sense_of sense = Ok tt ->
  let e := if (status_validity q =? 1) && Z.testbit (scsi_bus_status q) 1 then EAsiCheckCondition sense else EAsiSCSI in
  exists s', call_evaluates (call os me c) s s' (CallRaises e) /\
    pending s' = [] /\ cb_log s' = cb_log s ++ [(me, RespExn e)].
Proof.
  intros s me c h1 q1 b h d q failed sense Hp Hi Hm Hl Hcr Hd Hv Hc Hf Hh Hs Ho e.
  pose proof (aix_prepared s c _ _ _ _ eq_refl Hcr) as Hpr.
  set (r := Passthru (length (x_objs (world s))) b) in *.
  set (w0 := AixWorld h1 (x_objs (world s) ++ [q1]) (x_dev (world s)) (x_buffer (world s))) in *.
  destruct (aix_send_spec (with_world (at_send s r (Some me)) w0) r q1 h d q failed (nth_new _ _ _) Hd) as [_ X].
  assert (Hc' : use_ctypes = true \/ failed = false \/ einval_arg q = 0 /\ status_validity q <> 0) by tauto.
  specialize (X Hc').
  set (w := AixWorld h (put_obj (p_obj r) q (x_objs w0)) d (Some q)) in *.
  assert (Hint : aix_intact (world (with_world (at_send s r (Some me)) w)) r q).
  { split; [apply put_new|]. split.
    - intros a Ha. cbn [world with_world x_heap w]. cbn in Ha. subst b.
      unfold passthru_create, alloc in Hcr.
      destruct c as [cdb n|cdb data]; [destruct (0 <? n)|]; inversion Hcr; subst;
        rewrite !app_length in *; cbn [length] in *; lia.
    - rewrite Hf. unfold r, passthru_create, alloc in *. cbn [p_data_buffer].
      destruct c as [cdb n|cdb data]; [destruct (0 <? n)|]; inversion Hcr; subst; discriminate. }
  assert (Hg : dict_get 0 (pending (with_world (at_send s r (Some me)) w)) = Some (r, Some me)).
  { cbn. rewrite Hi. apply dict_get_set_eq. }
  pose proof (aix_handle_spec (with_world (at_send s r (Some me)) w) q r (Some me) q sense Hg Hint (fun _ _ => conj Hs Ho)) as Hh2.
  destruct (Z.eqb_spec (status_validity q) 0) as [E0|_]; [contradiction|].
  replace (if (status_validity q =? 1) && Z.testbit (scsi_bus_status q) 1
           then RespExn (EAsiCheckCondition sense) else RespExn EAsiSCSI) with (RespExn e) in Hh2
    by (unfold e; destruct ((status_validity q =? 1) && Z.testbit (scsi_bus_status q) 1); reflexivity).
  eexists. split.
  - eapply (call_answered os c me s r w0 w (VData (DInt 168)) true w (RespExn e) true); auto.
    + rewrite Hp. cbn. lia.
    + rewrite Hi. apply (aix_receive_evaluates (with_world (at_send s r (Some me)) w) q); auto.
    + rewrite Hp. reflexivity.
  - cbn. auto.
Qed.

(** With the ctypes ioctl a failure that leaves no valid status goes unnoticed. *)
Theorem aix_ctypes_unnoticed : forall (s : ex) me c h1 q1 b h d q failed,
  use_ctypes = true ->
  pending s = [] -> packet_index s = 0 -> 1 <= max_queue_size s -> ~ In me (map fst (cb_log s)) ->
  passthru_create c timeout (x_heap (world s)) = (h1, q1, b) ->
  drv q1 h1 (x_dev (world s)) = (h, d, q, failed) ->
  status_validity q = 0 -> sc_flags q = sc_flags q1 -> (length h1 <= length h)%nat ->
  exists s' x, call_evaluates (call os me c) s s' (outcome_of (RespData x)) /\
    pending s' = [] /\ cb_log s' = cb_log s ++ [(me, RespData x)].
Proof.
  intros s me c h1 q1 b h d q failed Hc Hp Hi Hm Hl Hcr Hd Hv Hf Hh.
  pose proof (aix_prepared s c _ _ _ _ eq_refl Hcr) as Hpr.
  set (r := Passthru (length (x_objs (world s))) b) in *.
  set (w0 := AixWorld h1 (x_objs (world s) ++ [q1]) (x_dev (world s)) (x_buffer (world s))) in *.
  destruct (aix_send_spec (with_world (at_send s r (Some me)) w0) r q1 h d q failed (nth_new _ _ _) Hd) as [_ X].
  specialize (X (or_introl Hc)).
  set (w := AixWorld h (put_obj (p_obj r) q (x_objs w0)) d (Some q)) in *.
  assert (Hint : aix_intact (world (with_world (at_send s r (Some me)) w)) r q).
  { split; [apply put_new|]. split.
    - intros a Ha. cbn [world with_world x_heap w]. cbn in Ha. subst b.
      unfold passthru_create, alloc in Hcr.
      destruct c as [cdb n|cdb data]; [destruct (0 <? n)|]; inversion Hcr; subst;
        rewrite !app_length in *; cbn [length] in *; lia.
    - rewrite Hf. unfold r, passthru_create, alloc in *. cbn [p_data_buffer].
      destruct c as [cdb n|cdb data]; [destruct (0 <? n)|]; inversion Hcr; subst; discriminate. }
  pose proof (aix_handle_spec (with_world (at_send s r (Some me)) w) q r (Some me) q [] ) as Hh2.
  rewrite Hv in Hh2. cbn [Z.eqb] in Hh2.
  assert (Hg : dict_get 0 (pending (with_world (at_send s r (Some me)) w)) = Some (r, Some me)).
  { cbn. rewrite Hi. apply dict_get_set_eq. }
  specialize (Hh2 Hg Hint). 
  match type of Hh2 with _ -> aix_handle _ _ _ = Ok (RespData ?x, 0) =>
    assert (Hh3 : aix_handle sense_of q (with_world (at_send s r (Some me)) w) = Ok (RespData x, 0))
      by (apply Hh2; discriminate); set (y := x) in *
  end.
  eexists. exists y. split.
  - eapply (call_answered os c me s r w0 w (VData (DInt 168)) true w (RespData y) true); auto.
    + rewrite Hp. cbn. lia.
    + rewrite Hi. apply (aix_receive_evaluates (with_world (at_send s r (Some me)) w) q); auto.
    + rewrite Hp. reflexivity.
  - cbn. auto.
Qed.
End Aix.

(** ** The whole path over a device *)
Section AixCall.
Context {T A : Type}.
Context (sense_of : bytes -> result unit) (tgt : target T) (timeout : Z) (use_ctypes : bool).
Notation ex := (executer passthru (aix_world T)).
Notation os := (aix_os (A := A) sense_of (honest_sc tgt) timeout use_ctypes).

Lemma sc_described : forall c h h' q b, passthru_create c timeout h = (h', q, b) -> aix_fits c ->
  firstn (Z.to_nat (command_length q)) (scsi_cdb q) = command_of c /\
  sc_data q h' = data_out c /\
  (forall a, string_at (autosense_buffer_ptr q) 255 (sc_mem q a h') = Ok (pad 255 (a_sense a))) /\
  (forall a p, b = Some p -> (p < length (sc_mem q a h'))%nat) /\
  (Z.testbit (sc_flags q) 0 = true -> b <> None) /\
  (forall a, (if Z.testbit (sc_flags q) 0 && negb (data_length q =? 0)
     then match b with Some p => nth_error (sc_mem q a h') p | None => None end
     else None) = data_wanted c (a_data a)).
Proof.
  intros c h h' q b H [Hf1 Hf2]. unfold passthru_create, alloc in H.
  assert (Hk : Z.to_nat (c_ushort (zlen (command_of c))) = length (command_of c)).
  { unfold c_ushort. rewrite Z.mod_small; [apply Nat2Z.id|unfold zlen in *; lia]. }
  assert (Hcdb : firstn (length (command_of c)) (firstn SC_PASSTHRU_CDB_LEN (command_of c ++ zeros SC_PASSTHRU_CDB_LEN)) = command_of c).
  { rewrite firstn_firstn, Nat.min_l by (unfold zlen, SC_PASSTHRU_CDB_LEN in *; lia).
    rewrite firstn_app, Nat.sub_diag, firstn_all, firstn_O, app_nil_r. reflexivity. }
  assert (Hlen : forall q a m, length (sc_mem q a m) = length m).
  { intros. unfold sc_mem. rewrite poke_length. destruct (sc_reads q0); [apply poke_length|reflexivity]. }
  assert (Hpad : forall a, length (pad 255 (a_sense a)) = 255%nat).
  { intros. unfold pad. rewrite app_length, firstn_length, zeros_length. lia. }
  assert (Hq : command_length q = c_ushort (zlen (command_of c)) /\
    scsi_cdb q = firstn SC_PASSTHRU_CDB_LEN (command_of c ++ zeros SC_PASSTHRU_CDB_LEN) /\
    autosense_buffer_ptr q = Some (length h) /\ autosense_length q = 255).
  { destruct c as [cdb n|cdb data]; [destruct (0 <? n) eqn:En|]; inversion H; subst; cbn; auto. }
  destruct Hq as (Q1 & Q2 & Q3 & Q4).
  split; [rewrite Q1, Q2, Hk; exact Hcdb|].
  assert (Hsense : forall a, nth_error (if sc_reads q then poke (sc_buffer q) (Z.to_nat (data_length q)) (a_data a) h' else h')
      (length h) = Some (zeros 255) ->
    string_at (autosense_buffer_ptr q) 255 (sc_mem q a h') = Ok (pad 255 (a_sense a))).
  { intros a Ha. unfold string_at, sc_mem. rewrite Q3, Q4. rewrite (poke_eq _ _ _ _ _ Ha).
    change (Z.to_nat 255) with 255%nat. rewrite overwrite_zeros, Hpad.
    rewrite firstn_all2 by (rewrite Hpad; lia). reflexivity. }
  destruct c as [cdb n|cdb data]; [destruct (0 <? n) eqn:En|]; inversion H; subst;
    unfold sc_data, sc_reads in *; cbn [sc_flags sc_buffer data_length data_out command_of] in *;
    try (change (Z.testbit B_READ 0) with true in * ); try (change (Z.testbit B_WRITE 0) with false in * ); cbv iota in *.
  - apply Z.ltb_lt in En. split; [reflexivity|].
    split. { intros a. apply Hsense. rewrite poke_neq; [rewrite <- app_assoc; apply nth_own|].
      intro E; inversion E as [E']; rewrite !app_length in E'; simpl in E'; lia. }
    split. { intros a p Hp. rewrite Hlen. inversion Hp; subst. rewrite !app_length. cbn [length]. lia. }
    split; [discriminate|].
    intros a. rewrite c_ull_small by lia. destruct (Z.eqb_spec n 0); [lia|]. cbn [negb andb].
    unfold sc_mem, sc_reads. cbn [autosense_buffer_ptr autosense_length sc_flags sc_buffer data_length].
    change (Z.testbit B_READ 0) with true. cbv iota.
    rewrite poke_neq by (intro E; inversion E as [E']; rewrite !app_length in E'; simpl in E'; lia).
    erewrite poke_eq; [|rewrite nth_error_app2, Nat.sub_diag by lia; reflexivity].
    rewrite overwrite_zeros. cbn [data_wanted].
    replace (0 <? n) with true by (symmetry; apply Z.ltb_lt; lia). reflexivity.
  - split; [reflexivity|].
    split. { intros a. apply Hsense. apply nth_own. }
    split; [discriminate|]. split; [discriminate|].
    intros a. cbn [data_wanted]. rewrite En. reflexivity.
  - split.
    { rewrite c_ull_small by (unfold zlen in *; lia). unfold zlen. rewrite Nat2Z.id.
      rewrite <- (app_nil_r (_ ++ [data])). apply peek_own. }
    split. { intros a. apply Hsense. rewrite <- app_assoc. apply nth_own. }
    split. { intros a p Hp. rewrite Hlen. inversion Hp; subst. rewrite !app_length. cbn [length]. lia. }
    split; [discriminate|]. reflexivity.
Qed.

Lemma aix_run : forall (s : ex) me c t h objs buf t' a,
  world s = AixWorld h objs t buf -> aix_fits c -> tgt t (command_of c) (data_out c) = (t', a) ->
  exists r q h1 w0 w, passthru_create c timeout h = (h1, q, p_data_buffer r) /\ p_obj r = length objs /\
    os_prepare_to_send os c (packet_index s) (at_prepare s) = (with_world (at_prepare s) w0, Ok r) /\
    w = AixWorld (sc_mem q a h1) (put_obj (length objs) (sc_done q a) (objs ++ [q])) t' (Some (sc_done q a)) /\
    evaluates (os_send os r) (Send VNone) false (with_world (at_send s r (Some me)) w0)
      (with_world (at_send s r (Some me)) w) (CallReturns (VData (DInt 168)) true).
Proof.
  intros s me c t h objs buf t' a Hw Hf Ht.
  destruct (passthru_create c timeout h) as [[h1 q] b] eqn:Hcr.
  destruct (sc_described _ _ _ _ _ Hcr Hf) as (E1 & E2 & _).
  exists (Passthru (length objs) b), q, h1, (AixWorld h1 (objs ++ [q]) t buf).
  eexists. split; [reflexivity|]. split; [reflexivity|].
  split. { rewrite (aix_prepared sense_of (honest_sc tgt) timeout use_ctypes s c _ h1 q b Hw); [reflexivity|exact Hcr]. }
  split; [reflexivity|].
  destruct (aix_send_spec (A := A) sense_of (honest_sc tgt) timeout use_ctypes
    (with_world (at_send s (Passthru (length objs) b) (Some me)) (AixWorld h1 (objs ++ [q]) t buf))
    (Passthru (length objs) b) q (sc_mem q a h1) t' (sc_done q a) (negb (sc_validity a =? 0)) (nth_new _ _ _)) as [_ X].
  { cbn [world with_world x_heap x_dev]. unfold honest_sc. rewrite E1, E2, Ht. reflexivity. }
  apply X. right. cbn [einval_arg sc_done status_validity].
  destruct (Z.eqb_spec (sc_validity a) 0); [left; reflexivity|right; auto].
Qed.

Lemma aix_verdict : forall (s : ex) r cb c h h1 q objs t' a,
  passthru_create c timeout h = (h1, q, p_data_buffer r) -> p_obj r = length objs -> aix_fits c ->
  (Z.testbit (a_status a) 1 = true -> sense_of (pad 255 (a_sense a)) = Ok tt) ->
  world s = AixWorld (sc_mem q a h1) (put_obj (length objs) (sc_done q a) (objs ++ [q])) t' (Some (sc_done q a)) ->
  dict_get 0 (pending s) = Some (r, cb) ->
  aix_handle sense_of (sc_done q a) s = Ok (aix_expected c a, 0).
Proof.
  intros s r cb c h h1 q objs t' a Hcr Ho Hf Hse Hw Hg.
  destruct (sc_described _ _ _ _ _ Hcr Hf) as (_ & _ & E3 & E4 & E5 & E6).
  rewrite (aix_handle_spec sense_of s (sc_done q a) r cb (sc_done q a) (pad 255 (a_sense a)) Hg).
  - rewrite Hw. cbn [x_heap sc_flags data_length status_validity scsi_bus_status sc_done]. rewrite E6.
    unfold aix_expected, sc_validity.
    destruct (a_status a =? 0) eqn:E; cbn [negb].
    + destruct (a_host a =? 0); cbn [negb]; reflexivity.
    + cbn [Z.eqb]. destruct (Z.testbit (a_status a) 1); reflexivity.
  - rewrite Hw. split; [cbn; rewrite Ho; apply put_new|]. split; [intros p Hp; apply E4; exact Hp|exact E5].
  - intros _ Hb. rewrite Hw. split; [apply E3|auto].
Qed.

Theorem aix_call : forall (s : ex) me c t h objs buf t' a,
  pending s = [] -> packet_index s = 0 -> 1 <= max_queue_size s -> ~ In me (map fst (cb_log s)) ->
  world s = AixWorld h objs t buf -> aix_fits c -> tgt t (command_of c) (data_out c) = (t', a) ->
  (Z.testbit (a_status a) 1 = true -> sense_of (pad 255 (a_sense a)) = Ok tt) ->
  exists w, call_evaluates (call os me c) s
    (Executer [] (1 mod max_queue_size s) (max_queue_size s)
       (cb_log s ++ [(me, aix_expected c a)]) w)
    (outcome_of (aix_expected c a)) /\ x_dev w = t'.
Proof.
  intros s me c t h objs buf t' a Hp Hi Hm Hl Hw Hf Ht Hse.
  destruct (aix_run s me c t h objs buf t' a Hw Hf Ht) as (r & q & h1 & w0 & w & Hcr & Ho & Hpr & Hww & Hsend).
  exists w. split; [|subst w; reflexivity].
  pose proof (call_answered os c me s r w0 w (VData (DInt 168)) true w (aix_expected c a) true) as X.
  rewrite Hi, Hp in X. rewrite Z.add_0_l in X. apply X; auto.
  - cbn. lia.
  - apply (aix_receive_evaluates sense_of (honest_sc tgt) timeout use_ctypes
      (with_world (at_send s r (Some me)) w) (sc_done q a)); [rewrite Hww; reflexivity|].
    apply (aix_verdict _ r (Some me) c h h1 q objs t' a); auto.
    cbn. rewrite Hi. apply dict_get_set_eq.
Qed.

Theorem aix_other_packet : forall (s : ex) me c t h objs buf t' a,
  zlen (pending s) < max_queue_size s -> packet_index s <> 0 -> dict_get 0 (pending s) = None ->
  ~ In me (map fst (cb_log s)) ->
  world s = AixWorld h objs t buf -> aix_fits c -> tgt t (command_of c) (data_out c) = (t', a) ->
  (Z.testbit (a_status a) 1 = true -> sense_of (pad 255 (a_sense a)) = Ok tt) ->
  exists s', call_evaluates (call os me c) s s'
      (CallRaises (if (a_status a =? 0) && (a_host a =? 0) then EAttribute else EAsiInternal)) /\
    (exists r, dict_get (packet_index s) (pending s') = Some (r, Some me)) /\ cb_log s' = cb_log s /\ x_dev (world s') = t'.
Proof.
  intros s me c t h objs buf t' a Hroom Hi Hfree Hl Hw Hf Ht Hse.
  destruct (aix_run s me c t h objs buf t' a Hw Hf Ht) as (r & q & h1 & w0 & w & Hcr & Ho & Hpr & Hww & Hsend).
  destruct (sc_described _ _ _ _ _ Hcr Hf) as (_ & _ & E3 & _).
  assert (Hg : get_os_data (with_world (at_send s r (Some me)) w) 0 = None).
  { unfold get_os_data, at_send. cbn. rewrite dict_get_set_neq by auto. rewrite Hfree. reflexivity. }
  assert (Hb : x_buffer (world (with_world (at_send s r (Some me)) w)) = Some (sc_done q a)) by (rewrite Hww; reflexivity).
  destruct (Z.eqb_spec (sc_validity a) 0) as [E|E].
  - assert (Ex : (a_status a =? 0) && (a_host a =? 0) = true).
    { unfold sc_validity in E. destruct (a_status a =? 0), (a_host a =? 0); try discriminate; reflexivity. }
    rewrite Ex.
    exists (with_world (at_send s r (Some me)) w). split.
    + apply (call_receive_error_at os c me s r w0 w (VData (DInt 168)) true w EAttribute); auto.
      apply (aix_receive_raises sense_of (honest_sc tgt) timeout use_ctypes
        (with_world (at_send s r (Some me)) w) (sc_done q a)); auto.
      unfold aix_handle. cbn [status_validity sc_done]. rewrite E, Hg. reflexivity.
    + split; [exists r; cbn; apply dict_get_set_eq|]. split; [reflexivity|]. rewrite Hww. reflexivity.
  - assert (Ex : (a_status a =? 0) && (a_host a =? 0) = false).
    { unfold sc_validity in E. destruct (a_status a =? 0), (a_host a =? 0); try reflexivity. contradiction. }
    rewrite Ex. exists (with_world (at_send s r (Some me)) w). split.
    + eapply (call_misrouted os c me s r w0 w (VData (DInt 168)) true w _ 0); auto.
      apply (aix_receive_evaluates sense_of (honest_sc tgt) timeout use_ctypes
        (with_world (at_send s r (Some me)) w) (sc_done q a)); auto.
      unfold aix_handle. cbn [status_validity sc_done]. destruct (Z.eqb_spec (sc_validity a) 0); [contradiction|].
      cbn [negb].
      instantiate (1 := if (sc_validity a =? 1) && Z.testbit (a_status a) 1
                        then RespExn (EAsiCheckCondition (pad 255 (a_sense a))) else RespExn EAsiSCSI).
      unfold SC_SCSI_ERROR, SCSI_STATUS_MASK, SCSI_STATUS_CHECK_CONDITION.
      destruct (sc_validity a =? 1); cbn [andb].
      * rewrite land_2, mask_bit1. cbn [scsi_bus_status autosense_buffer_ptr sc_done]. destruct (Z.testbit (a_status a) 1); [|reflexivity].
        subst w. cbn [world with_world x_heap autosense_buffer_ptr]. unfold SENSE_SIZE. rewrite E3. cbn [bind].
        unfold check_condition. rewrite Hse by reflexivity. reflexivity.
      * destruct (sc_validity a =? SC_ADAPTER_ERROR); reflexivity.
    + split; [exists r; cbn; apply dict_get_set_eq|]. split; [reflexivity|]. rewrite Hww. reflexivity.
Qed.
End AixCall.
