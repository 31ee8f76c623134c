(** Lemmas on the Linux OS layer. *)
From Coq Require Import ZArith List Bool Lia.
From Verif Require Import Base BaseFacts Gen SpecGen Executer SpecCall ExecFacts ExecGenFacts ExecStepFacts
  OsCommon OsLinux SpecSg ExampleGens OsFacts.
Import ListNotations.
Open Scope Z_scope.

(** ** Bits *)
Lemma land_pow2_testbit : forall x k, 0 <= k ->
  negb (Z.land x (2 ^ k) =? 0) = Z.testbit x k.
Proof.
  intros. destruct (Z.testbit x k) eqn:E.
  - apply negb_true_iff. apply Z.eqb_neq. intro H0.
    assert (Z.testbit (Z.land x (2 ^ k)) k = false) by (rewrite H0; apply Z.bits_0).
    rewrite Z.land_spec, E, Z.pow2_bits_true in H1 by lia. discriminate.
  - apply negb_false_iff. apply Z.eqb_eq. apply Z.bits_inj'. intros n Hn.
    rewrite Z.land_spec, Z.bits_0. destruct (Z.eq_dec n k).
    + subst. rewrite E. reflexivity.
    + rewrite Z.pow2_bits_false by lia. apply andb_false_r.
Qed.
Lemma land_2 : forall x, negb (Z.land x 2 =? 0) = Z.testbit x 1.
Proof. intros. apply (land_pow2_testbit x 1). lia. Qed.
Lemma land_8 : forall x, negb (Z.land x 8 =? 0) = Z.testbit x 3.
Proof. intros. apply (land_pow2_testbit x 3). lia. Qed.
Lemma land_15 : forall x, Z.land x 15 = x mod 16.
Proof. intros. change 15 with (Z.ones 4). rewrite Z.land_ones by lia. reflexivity. Qed.

Lemma linux_guard : forall st drv,
  (negb (Z.land st SCSI_STATUS_CHECK_CONDITION =? 0) || negb (Z.land drv SG_ERR_DRIVER_SENSE =? 0))%bool
  = is_check_condition st drv.
Proof. intros. unfold SCSI_STATUS_CHECK_CONDITION, SG_ERR_DRIVER_SENSE. rewrite land_2, land_8. reflexivity. Qed.

(** ** Memory *)
Lemma nth_alloc : forall (h : heap) b, nth_error (fst (alloc h b)) (snd (alloc h b)) = Some b.
Proof. intros. unfold alloc; simpl. rewrite nth_error_app2, Nat.sub_diag by lia. reflexivity. Qed.

Lemma set_nth_length : forall h a b, length (set_nth h a b) = length h.
Proof. induction h as [|x h IH]; intros [|a] b; simpl; auto. Qed.
Lemma nth_set_nth_eq : forall h a b, (a < length h)%nat -> nth_error (set_nth h a b) a = Some b.
Proof. induction h as [|x h IH]; intros [|a] b H; simpl in *; try lia; auto. apply IH. lia. Qed.
Lemma nth_set_nth_neq : forall h a b k, a <> k -> nth_error (set_nth h a b) k = nth_error h k.
Proof.
  induction h as [|x h IH]; intros [|a] b [|k] H; simpl; auto; congruence.
Qed.

Lemma poke_eq : forall a n new h b, nth_error h a = Some b ->
  nth_error (poke (Some a) n new h) a = Some (overwrite n new b).
Proof.
  intros. unfold poke. rewrite H. apply nth_set_nth_eq. apply nth_error_Some. congruence.
Qed.
Lemma poke_neq : forall p n new h k, p <> Some k -> nth_error (poke p n new h) k = nth_error h k.
Proof.
  intros. unfold poke. destruct p as [a|]; auto. destruct (nth_error h a); auto.
  apply nth_set_nth_neq. congruence.
Qed.

Lemma zeros_length : forall n, length (zeros n) = n.
Proof. intros. apply repeat_length. Qed.
Lemma skipn_zeros : forall k n, skipn k (zeros n) = zeros (n - k).
Proof. unfold zeros. induction k; destruct n; simpl; auto. Qed.

Lemma overwrite_zeros : forall n new, overwrite n new (zeros n) = pad n new.
Proof.
  intros. unfold overwrite, pad. rewrite zeros_length, skipn_zeros.
  assert (length (firstn n new ++ zeros (n - length (firstn n new))) = n).
  { rewrite app_length, zeros_length. pose proof (firstn_le_length n new). lia. }
  rewrite firstn_all2 by lia. f_equal. f_equal. rewrite firstn_length. lia.
Qed.

(** ** Receiving *)
Section Facts.
Context {D A : Type}.
Context (sense_of : bytes -> result unit) (drv : sg_driver D) (timeout : Z).
Notation ex := (executer sgio (linux_world D)).
Notation os := (linux_os (A := A) sense_of drv timeout).

Lemma linux_receive_evaluates : forall (s : ex) h d raw rp pid p,
  sg_read drv (l_heap (world s)) (l_dev (world s)) = (h, d, Ok raw) ->
  linux_handle sense_of raw (with_world s (LinuxWorld h d (l_buffer (world s)))) = Ok (rp, pid) ->
  evaluates (os_receive os) (Send VNone) p s (with_world s (LinuxWorld h d (l_buffer (world s))))
    (CallReturns (VData (DPair rp pid)) true).
Proof.
  intros. eapply ev_value; [simpl; rewrite H; reflexivity|apply vdata_not_exn|].
  eapply ev_value; [simpl; rewrite H0; reflexivity|apply vdata_not_exn|].
  apply ev_finish; [reflexivity|apply vdata_not_exn].
Qed.

Lemma linux_receive_raises : forall (s : ex) h d raw e p,
  sg_read drv (l_heap (world s)) (l_dev (world s)) = (h, d, Ok raw) ->
  linux_handle sense_of raw (with_world s (LinuxWorld h d (l_buffer (world s)))) = Err e ->
  evaluates (os_receive os) (Send VNone) p s (with_world s (LinuxWorld h d (l_buffer (world s))))
    (CallRaises e).
Proof.
  intros. eapply ev_value; [simpl; rewrite H; reflexivity|apply vdata_not_exn|].
  apply ev_raise. simpl; rewrite H0; reflexivity.
Qed.

(** The verdict on a completed block, in terms of its statuses. *)
Lemma linux_handle_spec : forall (s : ex) response r cb sense,
  dict_get (pack_id response) (pending s) = Some (r, cb) ->
  (is_check_condition (status response) (driver_status response) = true ->
     string_at (sbp response) 255 (l_heap (world s)) = Ok sense /\ sense_of sense = Ok tt) ->
  (forall a, data_buffer r = Some a -> (a < length (l_heap (world s)))%nat) ->
  (dxfer_direction (hdr r) = SG_DXFER_FROM_DEV -> data_buffer r <> None) ->
  linux_handle sense_of (Some response) s = Ok
   (if is_check_condition (status response) (driver_status response)
    then RespExn (EAsiCheckCondition sense)
    else if is_clean (status response) (host_status response) (driver_status response)
    then RespData (if (dxfer_direction (hdr r) =? SG_DXFER_FROM_DEV) && negb (dxfer_len (hdr r) =? 0)
                   then match data_buffer r with Some a => nth_error (l_heap (world s)) a | None => None end
                   else None)
    else RespExn (linux_error (status response) (host_status response)), pack_id response).
Proof.
  intros s response r cb sense Hg Hs Hb Hf. unfold linux_handle. rewrite linux_guard.
  destruct (is_check_condition (status response) (driver_status response)) eqn:E.
  - destruct (Hs eq_refl) as [H1 H2]. unfold SENSE_SIZE. rewrite H1. simpl.
    unfold check_condition. rewrite H2. reflexivity.
  - unfold is_clean, linux_error. rewrite land_15.
    destruct (status response =? 0) eqn:E1; simpl.
    + destruct (driver_status response mod 16 =? 0) eqn:E2; simpl.
      * destruct (host_status response =? 0) eqn:E3; simpl; auto.
        unfold get_os_data. rewrite Hg. simpl.
        destruct (dxfer_direction (hdr r) =? SG_DXFER_FROM_DEV) eqn:E4; simpl; auto.
        destruct (dxfer_len (hdr r) =? 0); simpl; auto.
        apply Z.eqb_eq in E4. specialize (Hf E4).
        destruct (data_buffer r) as [a|] eqn:E5; [|congruence].
        unfold raw_of. specialize (Hb a eq_refl).
        destruct (nth_error (l_heap (world s)) a) eqn:E6; auto.
        apply nth_error_None in E6. lia.
      * rewrite andb_false_r. reflexivity.
    + unfold SCSI_STATUS_RESERVATION_CONFLICT.
      destruct (host_status response =? 7); auto. destruct (host_status response =? 24); auto.
Qed.
End Facts.

(** ** The whole path with an honest driver *)
Section Call.
Context {T A : Type}.
Context (sense_of : bytes -> result unit) (tgt : target T) (timeout : Z).
Notation ex := (executer sgio (linux_world (sg_state T))).
Notation os := (linux_os (A := A) sense_of (honest tgt) timeout).

Lemma c_ubyte_small : forall z, 0 <= z < 256 -> c_ubyte z = z.
Proof. intros. apply Z.mod_small. exact H. Qed.
Lemma c_uint_small : forall z, 0 <= z < 2 ^ 32 -> c_uint z = z.
Proof. intros. apply Z.mod_small. exact H. Qed.
Lemma c_int_small : forall z, - 2 ^ 31 <= z < 2 ^ 31 -> c_int z = z.
Proof. intros. unfold c_int, c_signed. rewrite Z.mod_small; lia. Qed.

Definition created (idx : Z) (c : scsi_command) (h : heap) (r : sgio) (h' : heap) : Prop :=
  sgio_create idx c timeout h = (h', r).

Lemma created_cdb : forall idx c h r h', created idx c h r h' -> zlen (command_of c) < 256 ->
  described_cdb (hdr r) h' = command_of c.
Proof.
  intros idx c h r h' H Hl. unfold created, sgio_create, alloc in H.
  assert (Hn : nth_error ((h ++ [zeros SENSE_SIZE]) ++ [command_of c]) (length (h ++ [zeros SENSE_SIZE])) = Some (command_of c)).
  { rewrite nth_error_app2, Nat.sub_diag by lia. reflexivity. }
  assert (Hk : Z.to_nat (c_ubyte (zlen (command_of c))) = length (command_of c)).
  { rewrite c_ubyte_small. apply Nat2Z.id. unfold zlen in *. lia. }
  assert (Hlt : (length (h ++ [zeros SENSE_SIZE]) < length ((h ++ [zeros SENSE_SIZE]) ++ [command_of c]))%nat).
  { rewrite (app_length _ [command_of c]). simpl. lia. }
  unfold described_cdb, peek.
  destruct c as [cdb n|cdb data]; [destruct (0 <? n)|]; inversion H; subst; cbn [hdr cmdp cmd_len command_of] in *;
    try (rewrite (nth_error_app1 _ _ Hlt)); rewrite Hn, Hk; apply firstn_all.
Qed.

Lemma created_data : forall idx c h r h', created idx c h r h' -> fits c ->
  described_data (hdr r) h' = data_out c.
Proof.
  intros idx c h r h' H [_ Hf]. unfold created, sgio_create, alloc in H. unfold described_data.
  destruct c as [cdb n|cdb data]; [destruct (0 <? n)|]; inversion H; subst; cbn [hdr dxfer_direction dxferp dxfer_len data_out]; try reflexivity.
  change (c_int SG_DXFER_TO_DEV =? -2) with true. cbv iota. unfold peek.
  rewrite nth_error_app2, Nat.sub_diag by lia. cbn [nth_error].
  rewrite c_uint_small by (unfold zlen in *; lia).
  unfold zlen. rewrite Nat2Z.id. apply firstn_all.
Qed.

Lemma created_sense : forall idx c h r h', created idx c h r h' ->
  sbp (hdr r) = Some (length h) /\ mx_sb_len (hdr r) = 255 /\
  nth_error h' (length h) = Some (zeros 255) /\ pack_id (hdr r) = c_int idx.
Proof.
  intros idx c h r h' H. unfold created, sgio_create, alloc in H.
  assert (Hx : forall rest, nth_error ((h ++ [zeros SENSE_SIZE]) ++ rest) (length h) = Some (zeros 255)).
  { intros. rewrite <- app_assoc, nth_error_app2, Nat.sub_diag by lia. reflexivity. }
  destruct c as [cdb n|cdb data]; [destruct (0 <? n)|]; inversion H; subst; cbn [hdr sbp mx_sb_len pack_id];
    (split; [reflexivity|]; split; [reflexivity|]; split; [|reflexivity]);
    first [apply Hx | rewrite <- app_assoc; apply Hx].
Qed.

Lemma created_sense_read : forall idx c h r h' a, created idx c h r h' ->
  string_at (sbp (hdr r)) 255 (completed_mem (hdr r) a h') = Ok (pad 255 (a_sense a)).
Proof.
  intros idx c h r h' a H. destruct (created_sense _ _ _ _ _ H) as [Hp [Hm [Hn _]]].
  assert (Hd : dxferp (hdr r) <> Some (length h)).
  { unfold created, sgio_create, alloc in H.
    destruct c as [cdb n|cdb data]; [destruct (0 <? n)|]; inversion H; subst; cbn [hdr dxferp];
      intro E; inversion E as [E']; rewrite ?app_length in E'; simpl in E'; lia. }
  unfold string_at, completed_mem. rewrite Hp, Hm.
  assert (Hn2 : nth_error (if dxfer_direction (hdr r) =? -3
     then poke (dxferp (hdr r)) (Z.to_nat (dxfer_len (hdr r))) (a_data a) h' else h') (length h) = Some (zeros 255)).
  { destruct (dxfer_direction (hdr r) =? -3); auto. rewrite poke_neq; auto. }
  rewrite (poke_eq _ _ _ _ _ Hn2). change (Z.to_nat 255) with 255%nat. rewrite overwrite_zeros.
  assert (length (pad 255 (a_sense a)) = 255)%nat.
  { unfold pad. rewrite app_length, firstn_length, zeros_length. lia. }
  destruct (Nat.leb_spec 255 (length (pad 255 (a_sense a)))); [|lia].
  rewrite firstn_all2 by lia. reflexivity.
Qed.

Lemma created_data_read : forall idx c h r h' a, created idx c h r h' -> fits c ->
  (if (dxfer_direction (hdr r) =? SG_DXFER_FROM_DEV) && negb (dxfer_len (hdr r) =? 0)
   then match data_buffer r with Some p => nth_error (completed_mem (hdr r) a h') p | None => None end
   else None) = data_wanted c (a_data a).
Proof.
  intros idx c h r h' a H [_ Hf]. pose proof (created_sense _ _ _ _ _ H) as [Hp [Hm _]].
  unfold completed_mem. rewrite Hp, Hm. clear Hp Hm.
  unfold created, sgio_create, alloc in H.
  destruct c as [cdb n|cdb data]; [destruct (0 <? n) eqn:En|]; inversion H; subst;
    cbn [hdr dxferp dxfer_direction data_buffer dxfer_len data_wanted]; rewrite ?En; try reflexivity.
  change (c_int SG_DXFER_FROM_DEV =? SG_DXFER_FROM_DEV) with true.
  change (c_int SG_DXFER_FROM_DEV =? -3) with true. cbv iota.
  apply Z.ltb_lt in En. rewrite c_uint_small by lia.
  destruct (Z.eqb_spec n 0); [lia|]. cbn [negb andb].
  rewrite poke_neq by (intro E; inversion E as [E']; rewrite !app_length in E'; simpl in E'; lia).
  erewrite poke_eq; [|rewrite nth_error_app2, Nat.sub_diag by lia; reflexivity].
  rewrite overwrite_zeros. reflexivity.
Qed.

Lemma poke_length : forall p n new h, length (poke p n new h) = length h.
Proof. intros. unfold poke. destruct p; auto. destruct (nth_error h a); auto. apply set_nth_length. Qed.

Lemma created_bounds : forall idx c h r h', created idx c h r h' ->
  (forall a p, data_buffer r = Some a -> (a < length (completed_mem (hdr r) p h'))%nat) /\
  (dxfer_direction (hdr r) = SG_DXFER_FROM_DEV -> data_buffer r <> None).
Proof.
  intros idx c h r h' H.
  assert (Hl : forall p, length (completed_mem (hdr r) p h') = length h').
  { intros. unfold completed_mem. rewrite poke_length. destruct (_ =? -3); auto. apply poke_length. }
  split.
  - intros a p Ha. rewrite Hl. unfold created, sgio_create, alloc in H.
    destruct c as [cdb n|cdb data]; [destruct (0 <? n)|]; inversion H; subst; inversion Ha; subst;
      rewrite !app_length; cbn [length]; lia.
  - unfold created, sgio_create, alloc in H.
    destruct c as [cdb n|cdb data]; [destruct (0 <? n)|]; inversion H; subst;
      cbn [hdr dxfer_direction data_buffer]; intro E; discriminate.
Qed.

Theorem linux_call : forall (s : ex) me c t h buf t' a,
  zlen (pending s) < max_queue_size s ->
  max_queue_size s <= 2 ^ 31 ->
  0 <= packet_index s < max_queue_size s ->
  dict_get (packet_index s) (pending s) = None ->
  ~ In me (map fst (cb_log s)) ->
  world s = LinuxWorld h (t, []) buf ->
  fits c ->
  tgt t (command_of c) (data_out c) = (t', a) ->
  (is_check_condition (a_status a) (a_driver a) = true -> sense_of (pad 255 (a_sense a)) = Ok tt) ->
  exists h', call_evaluates (call os me c) s
    (Executer (pending s) ((packet_index s + 1) mod max_queue_size s) (max_queue_size s)
       (cb_log s ++ [(me, linux_expected c a)]) (LinuxWorld h' (t', []) buf))
    (outcome_of (linux_expected c a)).
Proof.
  intros s me c t h buf t' a Hroom Hmax Hidx Hfree Hlog Hw Hfit Htgt Hsense.
  destruct (sgio_create (packet_index s) c timeout h) as [h1 r] eqn:Hcr.
  exists (completed_mem (hdr r) a h1).
  pose proof (created_sense _ _ _ _ _ Hcr) as [_ [_ [_ Hpid]]].
  rewrite c_int_small in Hpid by lia.
  apply (call_answered os c me s r (LinuxWorld h1 (t, []) buf) (LinuxWorld h1 (t', [(hdr r, a)]) buf)
    (VData (DInt 88)) true (LinuxWorld (completed_mem (hdr r) a h1) (t', []) buf)
    (linux_expected c a) true); auto.
  - cbn [os_prepare_to_send linux_os]. unfold linux_prepare, at_prepare. cbn [world with_index].
    rewrite Hw. cbn [l_heap l_dev l_buffer]. rewrite Hcr. reflexivity.
  - eapply ev_value.
    + cbn [os_send linux_os linux_send resume world with_world l_heap l_dev l_buffer sg_write honest honest_write fst snd].
      unfold honest_write. cbn [fst snd].
      rewrite (created_cdb _ _ _ _ _ Hcr), (created_data _ _ _ _ _ Hcr) by apply Hfit || auto.
      rewrite Htgt. reflexivity.
    + apply vdata_not_exn.
    + apply ev_finish; [reflexivity|apply vdata_not_exn].
  - assert (Hh : linux_handle sense_of (Some (completed_hdr (hdr r) a))
        (with_world (at_send s r (Some me)) (LinuxWorld (completed_mem (hdr r) a h1) (t', []) buf))
        = Ok (linux_expected c a, packet_index s)).
    { destruct (created_bounds _ _ _ _ _ Hcr) as [Hb1 Hb2].
      rewrite (linux_handle_spec sense_of _ _ r (Some me) (pad 255 (a_sense a))).
      - cbn [status host_status driver_status completed_hdr pack_id]. rewrite Hpid.
        change (l_heap (world (with_world (at_send s r (Some me)) (LinuxWorld (completed_mem (hdr r) a h1) (t', []) buf))))
          with (completed_mem (hdr r) a h1).
        rewrite (created_data_read _ _ _ _ _ a Hcr Hfit). reflexivity.
      - cbn [pack_id completed_hdr]. rewrite Hpid. cbn. apply dict_get_set_eq.
      - cbn [status driver_status completed_hdr sbp]. intros Hcc. split; auto.
        apply (created_sense_read _ _ _ _ _ a Hcr).
      - intros p Hp. apply Hb1; auto.
      - auto. }
    exact (linux_receive_evaluates sense_of (honest tgt) timeout
      (with_world (at_send s r (Some me)) (LinuxWorld h1 (t', [(hdr r, a)]) buf))
      _ _ _ _ _ _ eq_refl Hh).
Qed.
End Call.

(** ** Classification *)
Section Classify.
Context {D A : Type}.
Context (sense_of : bytes -> result unit) (drv : sg_driver D) (timeout : Z).
Notation ex := (executer sgio (linux_world D)).
Notation os := (linux_os (A := A) sense_of drv timeout).

Lemma clean_no_sense : forall d, d mod 16 = 0 -> Z.testbit d 3 = false.
Proof.
  intros. rewrite <- (Z.mod_pow2_bits_low d 4 3) by lia. change (2 ^ 4) with 16. rewrite H. reflexivity.
Qed.

Lemma linux_received : forall (s : ex) h d response r cb sense,
  sg_read drv (l_heap (world s)) (l_dev (world s)) = (h, d, Ok (Some response)) ->
  dict_get (pack_id response) (pending s) = Some (r, cb) ->
  string_at (sbp response) 255 h = Ok sense -> sense_of sense = Ok tt -> intact h r ->
  exists rp, evaluates (os_receive os) (Send VNone) false s
      (with_world s (LinuxWorld h d (l_buffer (world s)))) (CallReturns (VData (DPair rp (pack_id response))) true) /\
    rp = (if is_check_condition (status response) (driver_status response)
    then RespExn (EAsiCheckCondition sense)
    else if is_clean (status response) (host_status response) (driver_status response)
    then RespData (if (dxfer_direction (hdr r) =? SG_DXFER_FROM_DEV) && negb (dxfer_len (hdr r) =? 0)
                   then match data_buffer r with Some a => nth_error h a | None => None end
                   else None)
    else RespExn (linux_error (status response) (host_status response))).
Proof.
  intros s h d response r cb sense Hr Hg Hs Hp [Hi1 Hi2].
  eexists. split; [|reflexivity].
  apply linux_receive_evaluates with (raw := Some response); auto.
  rewrite (linux_handle_spec sense_of _ response r cb sense); auto.
Qed.

Theorem classification : forall (s : ex) h d response r cb sense,
  sg_read drv (l_heap (world s)) (l_dev (world s)) = (h, d, Ok (Some response)) ->
  dict_get (pack_id response) (pending s) = Some (r, cb) ->
  string_at (sbp response) 255 h = Ok sense -> sense_of sense = Ok tt -> intact h r ->
  exists rp, evaluates (os_receive os) (Send VNone) false s
      (with_world s (LinuxWorld h d (l_buffer (world s)))) (CallReturns (VData (DPair rp (pack_id response))) true) /\
    (rp = RespExn (EAsiCheckCondition sense) <->
       Z.testbit (status response) 1 = true \/ Z.testbit (driver_status response) 3 = true) /\
    ((exists x, rp = RespData x) <->
       status response = 0 /\ driver_status response mod 16 = 0 /\ host_status response = 0) /\
    (forall e, rp = RespExn e -> asi_exception e) /\
    (rp = RespExn EAsiReservationConflict <->
       Z.testbit (status response) 1 = false /\ Z.testbit (driver_status response) 3 = false /\
       status response <> 0 /\ host_status response = 24) /\
    (rp = RespExn EAsiQueueFull <->
       Z.testbit (status response) 1 = false /\ Z.testbit (driver_status response) 3 = false /\
       status response <> 0 /\ host_status response = 7) /\
    (rp = RespExn EAsiSCSI <->
       Z.testbit (status response) 1 = false /\ Z.testbit (driver_status response) 3 = false /\
       ~ (status response = 0 /\ driver_status response mod 16 = 0 /\ host_status response = 0) /\
       ~ (status response <> 0 /\ (host_status response = 24 \/ host_status response = 7))).
Proof.
  intros s h d response r cb sense Hr Hg Hs Hp Hi.
  destruct (linux_received s h d response r cb sense Hr Hg Hs Hp Hi) as [rp [He Hrp]].
  exists rp. split; [exact He|]. clear He.
  unfold is_check_condition, is_clean, linux_error in Hrp.
  pose proof (clean_no_sense (driver_status response)) as Hc.
  destruct (Z.testbit (status response) 1) eqn:E1; try rewrite E1 in Hrp; cbn [orb] in Hrp.
  - subst rp. assert (status response <> 0) by (intro E; rewrite E in E1; discriminate).
    split; [split; [intros _; first [left; reflexivity|right; reflexivity]|reflexivity]|]. split.
    { split; [intros [x Hx]; discriminate|intros [Hx _]; contradiction]. }
    split; [intros e He; inversion He; exact I|].
    split; [|split]; split; first [discriminate|intuition (discriminate || congruence || lia)].
  - destruct (Z.testbit (driver_status response) 3) eqn:E2; try rewrite E2 in Hrp; cbn [orb] in Hrp.
    + subst rp. assert (driver_status response mod 16 <> 0) by (intro E; specialize (Hc E); discriminate).
      split; [split; [intros _; first [left; reflexivity|right; reflexivity]|reflexivity]|]. split.
      { split; [intros [x Hx]; discriminate|intros [_ [Hx _]]; contradiction]. }
      split; [intros e He; inversion He; exact I|].
      split; [|split]; split; first [discriminate|intuition (discriminate || congruence || lia)].
    + destruct (Z.eqb_spec (status response) 0) as [E3|E3]; cbn [andb] in Hrp.
      * destruct (Z.eqb_spec (host_status response) 0) as [E4|E4]; cbn [andb] in Hrp.
        -- destruct (Z.eqb_spec (driver_status response mod 16) 0) as [E5|E5]; cbn [andb] in Hrp; subst rp.
           ++ split; [split; [discriminate|intros [Hx|Hx]; discriminate]|].
              split; [split; [auto|intros _; eexists; reflexivity]|].
              split; [intros e He; discriminate|].
              split; [|split]; split; first [discriminate|intuition (discriminate || congruence || lia)].
           ++ split; [split; [discriminate|intros [Hx|Hx]; discriminate]|].
              split; [split; [intros [x Hx]; discriminate|intros [_ [Hx _]]; contradiction]|].
              split; [intros e He; inversion He; exact I|].
              split; [|split]; split; first [discriminate|intuition (discriminate || congruence || lia)].
        -- subst rp. 
           split; [split; [discriminate|intros [Hx|Hx]; discriminate]|].
           split; [split; [intros [x Hx]; discriminate|intros [_ [_ Hx]]; contradiction]|].
           split; [intros e He; inversion He; exact I|].
           split; [|split]; split; first [discriminate|intuition (discriminate || congruence || lia)].
      * destruct (Z.eqb_spec (host_status response) 7) as [E4|E4];
          [|destruct (Z.eqb_spec (host_status response) 24) as [E6|E6]]; subst rp;
        (split; [split; [discriminate|intros [Hx|Hx]; discriminate]|]);
        (split; [split; [intros [x Hx]; discriminate|intros [Hx _]; contradiction]|]);
        (split; [intros e He; inversion He; exact I|]);
        (split; [|split]); split; first [discriminate|intuition (discriminate || congruence || lia)].
Qed.

(** A clean response that belongs to no waiting request. *)
Theorem clean_unknown : forall (s : ex) h d response,
  sg_read drv (l_heap (world s)) (l_dev (world s)) = (h, d, Ok (Some response)) ->
  dict_get (pack_id response) (pending s) = None ->
  status response = 0 -> driver_status response mod 16 = 0 -> host_status response = 0 ->
  evaluates (os_receive os) (Send VNone) false s
      (with_world s (LinuxWorld h d (l_buffer (world s)))) (CallRaises EAttribute).
Proof.
  intros s h d response Hr Hg H1 H2 H3. apply linux_receive_raises with (raw := Some response); auto.
  unfold linux_handle. rewrite linux_guard. unfold is_check_condition.
  rewrite (clean_no_sense _ H2), H1, land_15, H2, H3. simpl.
  unfold get_os_data. cbn [pending with_world]. rewrite Hg. reflexivity.
Qed.

(** Unparsable sense data. *)
Theorem bad_sense : forall (s : ex) h d response sense e,
  sg_read drv (l_heap (world s)) (l_dev (world s)) = (h, d, Ok (Some response)) ->
  Z.testbit (status response) 1 = true ->
  string_at (sbp response) 255 h = Ok sense -> sense_of sense = Err e ->
  evaluates (os_receive os) (Send VNone) false s
      (with_world s (LinuxWorld h d (l_buffer (world s)))) (CallRaises e).
Proof.
  intros s h d response sense e Hr H1 H2 H3. apply linux_receive_raises with (raw := Some response); auto.
  unfold linux_handle. rewrite linux_guard. unfold is_check_condition. rewrite H1. simpl.
  unfold SENSE_SIZE. rewrite H2. simpl. unfold check_condition. rewrite H3. reflexivity.
Qed.

(** The layer leaves the executer's own attributes alone. *)
Lemma handle_only_world : only_world (linux_receive_handle (A := A) (D := D) sense_of).
Proof.
  apply ow_step. intros [v|e] s; [|apply same_books_refl]. cbn.
  destruct v as [| |[b|z|l|rp pid|[raw|a]]]; try apply same_books_refl.
  destruct (linux_handle sense_of raw s) as [[rp pid]|e1]; [|apply same_books_refl].
  split; [apply same_books_refl|apply gen_end_only_world].
Qed.

Lemma prepare_books : forall c idx (s : ex), same_books s (fst (linux_prepare timeout c idx s)).
Proof.
  intros c idx s. unfold linux_prepare. destruct (sgio_create idx c timeout (l_heap (world s))).
  apply same_books_world.
Qed.

Theorem linux_only_world : os_only_world os.
Proof.
  split; [|split].
  - apply prepare_books.
  - intros r. apply ow_step. intros [v|e] s; [|apply same_books_refl]. cbn.
    destruct (sg_write drv (hdr r) (l_heap (world s)) (l_dev (world s))) as [[h d] [n|e1]];
      [split|]; try apply same_books_world. apply gen_end_only_world.
  - apply ow_step. intros [v|e] s; [|apply same_books_refl]. cbn.
    destruct (sg_read drv (l_heap (world s)) (l_dev (world s))) as [[h d] [n|e1]];
      [split|]; try apply same_books_world. apply handle_only_world.
Qed.

Theorem linux_ioctl_only_world : os_only_world (linux_ioctl_os (A := A) sense_of drv timeout).
Proof.
  split; [|split].
  - apply prepare_books.
  - intros r. apply ow_step. intros [v|e] s; [|apply same_books_refl]. cbn.
    destruct (sg_ioctl drv (hdr r) (l_heap (world s)) (l_dev (world s))) as [[h d] [n|e1]];
      [split|]; try apply same_books_world. apply gen_end_only_world.
  - apply ow_step. intros [v|e] s; [|apply same_books_refl]. cbn.
    destruct (l_buffer (world s)); [|apply same_books_refl].
    split; [apply same_books_refl|apply handle_only_world].
Qed.
End Classify.

(** ** The ioctl executer *)
Section Ioctl.
Context {T A : Type}.
Context (sense_of : bytes -> result unit) (tgt : target T) (timeout : Z).
Notation ex := (executer sgio (linux_world (sg_state T))).
Notation os := (linux_ioctl_os (A := A) sense_of (honest tgt) timeout).

Lemma created_fresh : forall idx c h r h', sgio_create idx c timeout h = (h', r) ->
  status (hdr r) = 0 /\ host_status (hdr r) = 0 /\ driver_status (hdr r) = 0.
Proof.
  intros idx c h r h' H. unfold sgio_create, alloc in H.
  destruct c as [cdb n|cdb data]; [destruct (0 <? n)|]; inversion H; subst; auto.
Qed.

Theorem linux_ioctl_call : forall (s : ex) me c t q h buf t' a,
  zlen (pending s) < max_queue_size s ->
  max_queue_size s <= 2 ^ 31 ->
  0 <= packet_index s < max_queue_size s ->
  dict_get (packet_index s) (pending s) = None ->
  ~ In me (map fst (cb_log s)) ->
  world s = LinuxWorld h (t, q) buf ->
  fits c ->
  tgt t (command_of c) (data_out c) = (t', a) ->
  exists h' buf', call_evaluates (call os me c) s
    (Executer (pending s) ((packet_index s + 1) mod max_queue_size s) (max_queue_size s)
       (cb_log s ++ [(me, RespData (data_wanted c (a_data a)))]) (LinuxWorld h' (t', q) buf'))
    (outcome_of (RespData (data_wanted c (a_data a)))).
Proof.
  intros s me c t q h buf t' a Hroom Hmax Hidx Hfree Hlog Hw Hfit Htgt.
  destruct (sgio_create (packet_index s) c timeout h) as [h1 r] eqn:Hcr.
  exists (completed_mem (hdr r) a h1), (Some (hdr r)).
  pose proof (created_sense timeout _ _ _ _ _ Hcr) as [_ [_ [_ Hpid]]].
  rewrite c_int_small in Hpid by lia.
  pose proof (created_fresh _ _ _ _ _ Hcr) as [Hf1 [Hf2 Hf3]].
  apply (call_answered os c me s r (LinuxWorld h1 (t, q) buf) (LinuxWorld (completed_mem (hdr r) a h1) (t', q) (Some (hdr r)))
    (VData (DInt 88)) true (LinuxWorld (completed_mem (hdr r) a h1) (t', q) (Some (hdr r)))
    (RespData (data_wanted c (a_data a))) true); auto.
  - cbn [os_prepare_to_send linux_ioctl_os]. unfold linux_prepare, at_prepare. cbn [world with_index].
    rewrite Hw. cbn [l_heap l_dev l_buffer]. rewrite Hcr. reflexivity.
  - eapply ev_value.
    + cbn [os_send linux_ioctl_os linux_ioctl_send resume world with_world l_heap l_dev l_buffer sg_ioctl honest honest_ioctl fst snd].
      unfold honest_ioctl. cbn [fst snd].
      rewrite (created_cdb timeout _ _ _ _ _ Hcr), (created_data timeout _ _ _ _ _ Hcr) by apply Hfit || auto.
      rewrite Htgt. reflexivity.
    + apply vdata_not_exn.
    + apply ev_finish; [reflexivity|apply vdata_not_exn].
  - assert (Hh : linux_handle sense_of (Some (hdr r))
        (with_world (at_send s r (Some me)) (LinuxWorld (completed_mem (hdr r) a h1) (t', q) (Some (hdr r))))
        = Ok (RespData (data_wanted c (a_data a)), packet_index s)).
    { destruct (created_bounds timeout _ _ _ _ _ Hcr) as [Hb1 Hb2].
      rewrite (linux_handle_spec sense_of _ _ r (Some me) []).
      - rewrite Hf1, Hf2, Hf3, Hpid. cbn [is_check_condition is_clean].
        change (l_heap (world (with_world (at_send s r (Some me)) (LinuxWorld (completed_mem (hdr r) a h1) (t', q) (Some (hdr r))))))
          with (completed_mem (hdr r) a h1).
        rewrite (created_data_read timeout _ _ _ _ _ a Hcr Hfit). reflexivity.
      - rewrite Hpid. cbn. apply dict_get_set_eq.
      - rewrite Hf1, Hf3. discriminate.
      - intros p Hp. apply Hb1; auto.
      - auto. }
    eapply ev_value; [reflexivity|apply vdata_not_exn|].
    eapply ev_value; [|apply vdata_not_exn|].
    + cbn [linux_receive_handle resume]. rewrite Hh. reflexivity.
    + apply ev_finish; [reflexivity|apply vdata_not_exn].
Qed.
End Ioctl.

(** ** Statements used in PropLinux.v *)
Section Statements.
Context {D A : Type}.
Context (sense_of : bytes -> result unit) (drv : sg_driver D) (timeout : Z).
Notation ex := (executer sgio (linux_world D)).
Notation os := (linux_os (A := A) sense_of drv timeout).

Lemma created_block : forall idx c h h' r, sgio_create idx c timeout h = (h', r) -> fits c ->
  firstn (length h) h' = h /\
  interface_id (hdr r) = 83 /\
  cmd_len (hdr r) = zlen (command_of c) /\ described_cdb (hdr r) h' = command_of c /\
  mx_sb_len (hdr r) = 255 /\ (exists p, sbp (hdr r) = Some p /\ nth_error h' p = Some (zeros 255)) /\
  (- 2 ^ 31 <= idx < 2 ^ 31 -> pack_id (hdr r) = idx) /\
  (0 <= timeout < 2 ^ 32 -> hdr_timeout (hdr r) = timeout) /\
  match c with
  | ReadCmd _ n =>
    if 0 <? n
    then dxfer_direction (hdr r) = -3 /\ dxfer_len (hdr r) = n /\ dxferp (hdr r) = data_buffer r /\
         exists p, data_buffer r = Some p /\ nth_error h' p = Some (zeros (Z.to_nat n))
    else dxfer_direction (hdr r) = -1 /\ dxfer_len (hdr r) = 0 /\ dxferp (hdr r) = None
  | WriteCmd _ data =>
    dxfer_direction (hdr r) = -2 /\ dxfer_len (hdr r) = zlen data /\ described_data (hdr r) h' = data
  end.
Proof.
  intros idx c h h' r H Hf.
  pose proof (created_cdb timeout _ _ _ _ _ H (proj1 Hf)) as H1.
  pose proof (created_data timeout _ _ _ _ _ H Hf) as H2.
  destruct (created_sense timeout _ _ _ _ _ H) as [H3 [H4 [H5 H6]]].
  destruct Hf as [Hf1 Hf2].
  unfold sgio_create, alloc in H.
  assert (Hn : 0 <= zlen (command_of c)) by (unfold zlen; lia).
  assert (Hl : cmd_len (hdr r) = zlen (command_of c)).
  { rewrite <- (c_ubyte_small (zlen (command_of c))) by lia.
    destruct c as [cdb n|cdb data]; [destruct (0 <? n)|]; inversion H; subst; reflexivity. }
  assert (Hh : firstn (length h) h' = h).
  { assert (Hx : forall x, firstn (length h) (h ++ x) = h).
    { intros. rewrite firstn_app, Nat.sub_diag, firstn_all, firstn_O, app_nil_r. reflexivity. }
    destruct c as [cdb n|cdb data]; [destruct (0 <? n)|]; inversion H; subst; rewrite <- ?app_assoc; apply Hx. }
  assert (Hi : interface_id (hdr r) = 83 /\ hdr_timeout (hdr r) = c_uint timeout).
  { destruct c as [cdb n|cdb data]; [destruct (0 <? n)|]; inversion H; subst; auto. }
  destruct Hi as [Hi Ht].
  split; [auto|]. split; [auto|]. split; [auto|]. split; [auto|]. split; [auto|].
  split; [eauto|]. split; [intros; rewrite H6; apply c_int_small; auto|].
  split; [intros; rewrite Ht; apply c_uint_small; auto|].
  destruct c as [cdb n|cdb data].
  - destruct (0 <? n) eqn:En; inversion H; subst; cbn [hdr dxfer_direction dxfer_len dxferp data_buffer].
    + apply Z.ltb_lt in En. split; [reflexivity|]. split; [apply c_uint_small; lia|]. split; [reflexivity|].
      eexists. split; [reflexivity|]. rewrite nth_error_app2, Nat.sub_diag by lia. reflexivity.
    + auto.
  - inversion H; subst; cbn [hdr dxfer_direction dxfer_len dxferp data_buffer] in *.
    split; [reflexivity|]. split; [apply c_uint_small; unfold zlen in *; lia|]. exact H2.
Qed.

(** CDBs of 256 bytes and more. *)
Lemma long_cdb : forall idx c h h' r, sgio_create idx c timeout h = (h', r) ->
  cmd_len (hdr r) = zlen (command_of c) mod 256.
Proof.
  intros idx c h h' r H. unfold sgio_create, alloc in H.
  destruct c as [cdb n|cdb data]; [destruct (0 <? n)|]; inversion H; subst; reflexivity.
Qed.

(** Data of a successful command, for every driver. *)
Theorem received_data : forall (s : ex) h d response r cb idx c h0 h1,
  sg_read drv (l_heap (world s)) (l_dev (world s)) = (h, d, Ok (Some response)) ->
  dict_get (pack_id response) (pending s) = Some (r, cb) ->
  sgio_create idx c timeout h0 = (h1, r) -> fits c -> (length h1 <= length h)%nat ->
  status response = 0 -> driver_status response mod 16 = 0 -> host_status response = 0 ->
  exists x, evaluates (os_receive os) (Send VNone) false s
      (with_world s (LinuxWorld h d (l_buffer (world s))))
      (CallReturns (VData (DPair (RespData x) (pack_id response))) true) /\
    match c with
    | ReadCmd _ n => if 0 <? n
                     then exists p b, data_buffer r = Some p /\ nth_error h p = Some b /\ x = Some b
                     else x = None
    | WriteCmd _ _ => x = None
    end.
Proof.
  intros s h d response r cb idx c h0 h1 Hr Hg Hcr Hf Hl Hs1 Hs2 Hs3.
  destruct (created_bounds timeout _ _ _ _ _ Hcr) as [Hb1 Hb2].
  assert (Hcc : is_check_condition (status response) (driver_status response) = false).
  { unfold is_check_condition. rewrite Hs1, (clean_no_sense _ Hs2). reflexivity. }
  assert (Hb : forall p, data_buffer r = Some p -> (p < length h)%nat).
  { intros p Hp. specialize (Hb1 p (Answer 0 0 0 [] []) Hp).
    unfold completed_mem in Hb1. rewrite poke_length in Hb1.
    destruct (_ =? -3) in Hb1; rewrite ?poke_length in Hb1; lia. }
  eexists. split.
  - apply linux_receive_evaluates with (raw := Some response); auto.
    rewrite (linux_handle_spec sense_of _ response r cb []); auto; [|rewrite Hcc; discriminate].
    rewrite Hcc. unfold is_clean. rewrite Hs1, Hs2, Hs3. reflexivity.
  - destruct (created_block _ _ _ _ _ Hcr Hf) as (_ & _ & _ & _ & _ & _ & _ & _ & Hm).
    destruct c as [cdb n|cdb data].
    + destruct (0 <? n) eqn:En.
      * destruct Hm as (E1 & E2 & _ & p & E3 & _). rewrite E1, E2, E3.
        apply Z.ltb_lt in En. destruct (Z.eqb_spec n 0); [lia|]. cbn.
        specialize (Hb p E3). destruct (nth_error h p) as [b|] eqn:E4; [eauto 6|].
        apply nth_error_None in E4. lia.
      * destruct Hm as (E1 & E2 & _). rewrite E1. reflexivity.
    + destruct Hm as (E1 & _). rewrite E1. reflexivity.
Qed.
End Statements.

(** The same for a device behind an honest driver. *)
Section Device.
Context {T A : Type}.
Context (sense_of : bytes -> result unit) (tgt : target T) (timeout : Z).
Notation ex := (executer sgio (linux_world (sg_state T))).
Notation os := (linux_os (A := A) sense_of (honest tgt) timeout).

Theorem device_data : forall (s : ex) me c t h buf t' a,
  zlen (pending s) < max_queue_size s -> max_queue_size s <= 2 ^ 31 ->
  0 <= packet_index s < max_queue_size s ->
  dict_get (packet_index s) (pending s) = None -> ~ In me (map fst (cb_log s)) ->
  world s = LinuxWorld h (t, []) buf -> fits c ->
  tgt t (command_of c) (data_out c) = (t', a) ->
  a_status a = 0 -> a_host a = 0 -> a_driver a mod 16 = 0 ->
  exists s', call_evaluates (call os me c) s s'
    (CallReturns match c with
     | ReadCmd _ n => if 0 <? n then VData (DBytes (pad (Z.to_nat n) (a_data a))) else VNone
     | WriteCmd _ _ => VNone
     end true).
Proof.
  intros s me c t h buf t' a H1 H2 H3 H4 H5 H6 H7 H8 Hs Hh Hd.
  assert (Hcc : is_check_condition (a_status a) (a_driver a) = false).
  { unfold is_check_condition. rewrite Hs, (clean_no_sense _ Hd). reflexivity. }
  destruct (linux_call (A := A) sense_of tgt timeout s me c t h buf t' a) as [h' He]; auto.
  { rewrite Hcc. discriminate. }
  assert (Hx : outcome_of (O := wire (option sg_hdr) A) (linux_expected c a) =
    CallReturns match c with
     | ReadCmd _ n => if 0 <? n then VData (DBytes (pad (Z.to_nat n) (a_data a))) else VNone
     | WriteCmd _ _ => VNone
     end true).
  { unfold linux_expected. rewrite Hcc. unfold is_clean. rewrite Hs, Hh, Hd. cbn.
    destruct c as [cdb n|cdb data]; cbn; [destruct (0 <? n)|]; reflexivity. }
  rewrite Hx in He. eauto.
Qed.

(** Sense data that the library cannot parse: the call raises and the request keeps its
    slot. *)
Theorem bad_sense_call : forall (s : ex) me c t h buf t' a e,
  zlen (pending s) < max_queue_size s -> max_queue_size s <= 2 ^ 31 ->
  0 <= packet_index s < max_queue_size s ->
  ~ In me (map fst (cb_log s)) ->
  world s = LinuxWorld h (t, []) buf -> fits c ->
  tgt t (command_of c) (data_out c) = (t', a) ->
  Z.testbit (a_status a) 1 = true -> sense_of (pad 255 (a_sense a)) = Err e ->
  exists s', call_evaluates (call os me c) s s' (CallRaises e) /\
    (exists r, dict_get (packet_index s) (pending s') = Some (r, Some me)) /\ cb_log s' = cb_log s.
Proof.
  intros s me c t h buf t' a e H1 H2 H3 H5 H6 H7 H8 Hs Hp.
  destruct (sgio_create (packet_index s) c timeout h) as [h1 r] eqn:Hcr.
  destruct (call_receive_error os c me s r (LinuxWorld h1 (t, []) buf) (LinuxWorld h1 (t', [(hdr r, a)]) buf)
    (VData (DInt 88)) true (LinuxWorld (completed_mem (hdr r) a h1) (t', []) buf) e) as [s' [E1 [E2 E3]]]; auto.
  - cbn [os_prepare_to_send linux_os]. unfold linux_prepare, at_prepare. cbn [world with_index].
    rewrite H6. cbn [l_heap l_dev l_buffer]. rewrite Hcr. reflexivity.
  - eapply ev_value.
    + cbn [os_send linux_os linux_send resume world with_world l_heap l_dev l_buffer sg_write honest honest_write fst snd].
      unfold honest_write. cbn [fst snd].
      rewrite (created_cdb timeout _ _ _ _ _ Hcr), (created_data timeout _ _ _ _ _ Hcr) by apply H7 || auto.
      rewrite H8. reflexivity.
    + apply vdata_not_exn.
    + apply ev_finish; [reflexivity|apply vdata_not_exn].
  - eapply (bad_sense sense_of (honest tgt) timeout
      (with_world (at_send s r (Some me)) (LinuxWorld h1 (t', [(hdr r, a)]) buf)) _ _
      (completed_hdr (hdr r) a) (pad 255 (a_sense a))).
    + reflexivity.
    + exact Hs.
    + apply (created_sense_read timeout _ _ _ _ _ a Hcr).
    + exact Hp.
  - exists s'. eauto.
Qed.
End Device.
