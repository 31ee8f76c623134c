(** Lemmas on the Solaris layer. *)
From Coq Require Import ZArith List Bool Lia.
From Verif Require Import Base BaseFacts Gen SpecGen Executer SpecCall ExecFacts ExecGenFacts ExecStepFacts
  OsCommon OsLinux OsSolaris OsAix OsWin32 SpecSg SpecDrivers ExampleGens OsFacts LinuxFacts.
Import ListNotations.
Open Scope Z_scope.

(** ** Solaris *)
Section Solaris.
Context {D A : Type}.
Context (sense_of : bytes -> result unit) (drv : uscsi_driver D) (timeout : Z).
Notation ex := (executer scsicmd (solaris_world D)).
Notation os := (solaris_os (A := A) sense_of drv timeout).

Lemma solaris_receive_evaluates : forall (s : ex) b rp pid p,
  s_buffer (world s) = Some b -> solaris_handle sense_of b s = Ok (rp, pid) ->
  evaluates (os_receive os) (Send VNone) p s s (CallReturns (VData (DPair rp pid)) true).
Proof.
  intros. eapply ev_value; [simpl; rewrite H; reflexivity|apply vdata_not_exn|].
  eapply ev_value; [simpl; rewrite H0; reflexivity|apply vdata_not_exn|].
  apply ev_finish; [reflexivity|apply vdata_not_exn].
Qed.
Lemma solaris_receive_raises : forall (s : ex) b e p,
  s_buffer (world s) = Some b -> solaris_handle sense_of b s = Err e ->
  evaluates (os_receive os) (Send VNone) p s s (CallRaises e).
Proof.
  intros. eapply ev_value; [simpl; rewrite H; reflexivity|apply vdata_not_exn|].
  apply ev_raise. simpl; rewrite H0; reflexivity.
Qed.

Lemma land_255 : forall x, Z.land x 255 = x mod 256.
Proof. intros. change 255 with (Z.ones 8). rewrite Z.land_ones by lia. reflexivity. Qed.
Lemma mod256_bit1 : forall x, Z.testbit (x mod 256) 1 = Z.testbit x 1.
Proof. intros. change 256 with (2 ^ 8). apply Z.mod_pow2_bits_low. lia. Qed.

Theorem solaris_classification : forall (s : ex) response r cb sense,
  s_buffer (world s) = Some response ->
  dict_get 0 (pending s) = Some (r, cb) ->
  string_at (uscsi_rqbuf response) 255 (s_heap (world s)) = Ok sense -> sense_of sense = Ok tt ->
  (forall a, u_data_buffer r = Some a -> (a < length (s_heap (world s)))%nat) ->
  (Z.testbit (uscsi_flags (u_hdr r)) 3 = true -> u_data_buffer r <> None) ->
  exists rp, evaluates (os_receive os) (Send VNone) false s s (CallReturns (VData (DPair rp 0)) true) /\
    (rp = RespExn (EAsiCheckCondition sense) <-> Z.testbit (uscsi_status response) 1 = true) /\
    ((exists x, rp = RespData x) <-> uscsi_status response mod 256 = 0 /\ uscsi_rqstatus response = 0) /\
    (rp = RespExn EAsiSCSI <->
       Z.testbit (uscsi_status response) 1 = false /\
       (uscsi_status response mod 256 <> 0 \/ uscsi_rqstatus response <> 0)) /\
    (forall x, rp = RespData x ->
       if Z.testbit (uscsi_flags (u_hdr r)) 3 && negb (uscsi_buflen (u_hdr r) =? 0)
       then exists p b, u_data_buffer r = Some p /\ nth_error (s_heap (world s)) p = Some b /\ x = Some b
       else x = None).
Proof.
  intros s response r cb sense Hb Hg Hs Hp Hi1 Hi2.
  assert (Hh : exists rp, solaris_handle sense_of response s = Ok (rp, 0) /\
    rp = if Z.testbit (uscsi_status response) 1 then RespExn (EAsiCheckCondition sense)
         else if (uscsi_status response mod 256 =? 0) && (uscsi_rqstatus response =? 0)
         then RespData (if Z.testbit (uscsi_flags (u_hdr r)) 3 && negb (uscsi_buflen (u_hdr r) =? 0)
                        then match u_data_buffer r with Some a => nth_error (s_heap (world s)) a | None => None end
                        else None)
         else RespExn EAsiSCSI).
  { unfold solaris_handle. unfold SCSI_STATUS_CHECK_CONDITION. rewrite land_2, land_255, mod256_bit1.
    destruct (Z.testbit (uscsi_status response) 1).
    - unfold SENSE_SIZE. rewrite Hs. cbn. unfold check_condition. rewrite Hp. cbn. eauto.
    - destruct (uscsi_status response mod 256 =? 0); cbn [negb andb]; [|eauto].
      destruct (uscsi_rqstatus response =? 0); cbn [negb andb]; [|eauto].
      unfold get_os_data. rewrite Hg. cbn [option_map fst]. unfold USCSI_READ. rewrite land_8.
      destruct (Z.testbit (uscsi_flags (u_hdr r)) 3) eqn:E; cbn [andb]; [|eauto].
      destruct (uscsi_buflen (u_hdr r) =? 0); cbn [negb]; [eauto|].
      specialize (Hi2 eq_refl). destruct (u_data_buffer r) as [a|]; [|congruence].
      specialize (Hi1 a eq_refl). unfold raw_of.
      destruct (nth_error (s_heap (world s)) a) eqn:E1; [cbn; eauto|].
      apply nth_error_None in E1. lia. }
  destruct Hh as [rp [Hh Hrp]]. exists rp.
  remember (Z.testbit (uscsi_flags (u_hdr r)) 3 && negb (uscsi_buflen (u_hdr r) =? 0)) as cond eqn:E4.
  split; [eapply solaris_receive_evaluates; eauto|].
  destruct (Z.testbit (uscsi_status response) 1) eqn:E1.
  - subst rp. assert (uscsi_status response mod 256 <> 0).
    { intro E. rewrite <- mod256_bit1, E in E1. discriminate. }
    split; [split; auto|]. split; [split; [intros [x Hx]; discriminate|intros [Hx _]; contradiction]|].
    split; [split; [discriminate|intros [Hx _]; discriminate]|]. intros; discriminate.
  - destruct (Z.eqb_spec (uscsi_status response mod 256) 0) as [E2|E2]; cbn [andb] in Hrp;
      [destruct (Z.eqb_spec (uscsi_rqstatus response) 0) as [E3|E3]|]; subst rp;
    (split; [split; [discriminate|intro Hx; discriminate]|]).
    + split; [split; [auto|eauto]|]. split; [split; [discriminate|intros [_ [Hx|Hx]]; contradiction]|].
      intros x Hx. injection Hx as Hx. rewrite <- Hx. clear Hx x.
      destruct cond; [|reflexivity]. symmetry in E4.
      apply andb_prop in E4. destruct E4 as [E4 _]. specialize (Hi2 E4).
      destruct (u_data_buffer r) as [a|]; [|congruence]. specialize (Hi1 a eq_refl).
      destruct (nth_error (s_heap (world s)) a) eqn:E5; [eauto|]. apply nth_error_None in E5. lia.
    + split; [split; [intros [x Hx]; discriminate|intros [_ Hx]; contradiction]|].
      split; [tauto|]. intros; discriminate.
    + split; [split; [intros [x Hx]; discriminate|intros [Hx _]; contradiction]|].
      split; [tauto|]. intros; discriminate.
Qed.

(** The reason code is lost. *)
Lemma reason_zero : forall response, solaris_reason response = 0.
Proof.
  intros. unfold solaris_reason. rewrite land_255, Z.shiftl_mul_pow2 by lia.
  change (2 ^ 8) with 256. apply Z.mod_mul. lia.
Qed.

(** A failing ioctl. *)
Lemma solaris_send_fails : forall (s : ex) r h d q errno p,
  drv (u_hdr r) (s_heap (world s)) (s_dev (world s)) = (h, d, q, Some errno) ->
  evaluates (os_send os r) (Send VNone) p s (with_world s (SolarisWorld h d (Some (u_hdr r)))) (CallRaises (EIO errno)).
Proof. intros. apply ev_raise. simpl. rewrite H. reflexivity. Qed.
Lemma solaris_send_ok : forall (s : ex) r h d q p,
  drv (u_hdr r) (s_heap (world s)) (s_dev (world s)) = (h, d, q, None) ->
  evaluates (os_send os r) (Send VNone) p s (with_world s (SolarisWorld h d (Some q))) (CallReturns (VData (DInt 65)) true).
Proof.
  intros. eapply ev_value; [simpl; rewrite H; reflexivity|apply vdata_not_exn|].
  apply ev_finish; [reflexivity|apply vdata_not_exn].
Qed.

Theorem solaris_only_world : os_only_world os.
Proof.
  split; [|split].
  - intros c idx s. cbn. unfold solaris_prepare. destruct (scsicmd_create c timeout (s_heap (world s))).
    apply same_books_world.
  - intros r. apply ow_step. intros [v|e] s; [|apply same_books_refl]. cbn.
    destruct (drv (u_hdr r) (s_heap (world s)) (s_dev (world s))) as [[[h d] q] [n|]];
      [|split]; try apply same_books_world. apply gen_end_only_world.
  - apply ow_step. intros [v|e] s; [|apply same_books_refl]. cbn.
    destruct (s_buffer (world s)); [|apply same_books_refl].
    split; [apply same_books_refl|]. apply ow_step. intros [v1|e1] s1; [|apply same_books_refl]. cbn.
    destruct v1 as [| |[b|z|l|rp pid|[raw|a]]]; try apply same_books_refl.
    destruct (solaris_handle sense_of raw s1) as [[rp pid]|e1]; [|apply same_books_refl].
    split; [apply same_books_refl|apply gen_end_only_world].
Qed.
End Solaris.

(** The whole path. *)
Section SolarisCall.
Context {T A : Type}.
Context (sense_of : bytes -> result unit) (tgt : target T) (fails : answer -> bool) (timeout : Z).
Notation ex := (executer scsicmd (solaris_world T)).
Notation os := (solaris_os (A := A) sense_of (honest_uscsi tgt fails) timeout).

Lemma c_ull_small : forall z, 0 <= z < 2 ^ 64 -> c_ulonglong z = z.
Proof. intros. apply Z.mod_small. exact H. Qed.

Lemma peek_own : forall h b rest, peek (Some (length h)) (length b) ((h ++ [b]) ++ rest) = b.
Proof.
  intros. unfold peek. rewrite <- app_assoc, nth_error_app2, Nat.sub_diag by lia. cbn. apply firstn_all.
Qed.
Lemma nth_own : forall (h : heap) b rest, nth_error ((h ++ [b]) ++ rest) (length h) = Some b.
Proof. intros. rewrite <- app_assoc, nth_error_app2, Nat.sub_diag by lia. reflexivity. Qed.

(** What the driver sees of a created block. *)
Lemma uscsi_described : forall c h h' r, scsicmd_create c timeout h = (h', r) -> fits64 c ->
  peek (uscsi_cdb (u_hdr r)) (Z.to_nat (uscsi_cdblen (u_hdr r))) h' = command_of c /\
  uscsi_data (u_hdr r) h' = data_out c /\
  uscsi_rqstatus (u_hdr r) = 0 /\
  (forall a, string_at (uscsi_rqbuf (u_hdr r)) 255 (uscsi_mem (u_hdr r) a h') = Ok (pad 255 (a_sense a))) /\
  (forall a b, u_data_buffer r = Some b -> (b < length (uscsi_mem (u_hdr r) a h'))%nat) /\
  (Z.testbit (uscsi_flags (u_hdr r)) 3 = true -> u_data_buffer r <> None) /\
  (forall a, (if Z.testbit (uscsi_flags (u_hdr r)) 3 && negb (uscsi_buflen (u_hdr r) =? 0)
     then match u_data_buffer r with Some p => nth_error (uscsi_mem (u_hdr r) a h') p | None => None end
     else None) = data_wanted c (a_data a)).
Proof.
  intros c h h' r H [Hf1 Hf2]. unfold scsicmd_create, alloc in H.
  assert (Hk : Z.to_nat (c_ubyte (zlen (command_of c))) = length (command_of c)).
  { rewrite c_ubyte_small; [apply Nat2Z.id|unfold zlen in *; lia]. }
  assert (Hlen : forall q a m, length (uscsi_mem q a m) = length m).
  { intros. unfold uscsi_mem. rewrite poke_length. destruct (uscsi_reads q); [apply poke_length|reflexivity]. }
  assert (Hpad : forall a, length (pad 255 (a_sense a)) = 255%nat).
  { intros. unfold pad. rewrite app_length, firstn_length, zeros_length. lia. }
  destruct c as [cdb n|cdb data]; [destruct (0 <? n) eqn:En|]; inversion H; subst;
    cbn [u_hdr u_data_buffer uscsi_cdb uscsi_cdblen uscsi_bufaddr uscsi_buflen uscsi_rqstatus uscsi_rqbuf uscsi_flags command_of data_out] in *;
    unfold uscsi_data, uscsi_reads; cbn [uscsi_flags uscsi_bufaddr uscsi_buflen];
    try (change (Z.testbit (c_int 2162698) 3) with true);
    try (change (Z.testbit (c_int USCSI_DEFAULT_FLAGS) 3) with false);
    cbv iota.
  - apply Z.ltb_lt in En.
    split; [rewrite Hk; apply peek_own|]. split; [reflexivity|]. split; [reflexivity|].
    split.
    { intros a. unfold string_at, uscsi_mem, uscsi_reads. cbn [uscsi_rqbuf uscsi_rqlen uscsi_flags uscsi_bufaddr uscsi_buflen].
      change (Z.testbit (c_int 2162698) 3) with true. cbv iota.
      erewrite poke_eq.
      2:{ rewrite poke_neq; [rewrite <- app_assoc; apply nth_own|].
          intro E; inversion E as [E']; rewrite !app_length in E'; simpl in E'; lia. }
      change (Z.to_nat (c_ubyte 255)) with 255%nat. rewrite overwrite_zeros.
      rewrite Hpad. rewrite firstn_all2 by (rewrite Hpad; lia). reflexivity. }
    split.
    { intros a b Hb. rewrite Hlen. inversion Hb; subst. rewrite !app_length. cbn [length]. lia. }
    split; [discriminate|].
    intros a. rewrite c_ull_small by lia. destruct (Z.eqb_spec n 0); [lia|]. cbn [negb andb].
    unfold uscsi_mem, uscsi_reads. cbn [uscsi_rqbuf uscsi_rqlen uscsi_flags uscsi_bufaddr uscsi_buflen].
    change (Z.testbit (c_int 2162698) 3) with true. cbv iota.
    rewrite poke_neq by (intro E; inversion E as [E']; rewrite !app_length in E'; simpl in E'; lia).
    erewrite poke_eq; [|rewrite nth_error_app2, Nat.sub_diag by lia; reflexivity].
    rewrite overwrite_zeros. cbn [data_wanted].
    replace (0 <? n) with true by (symmetry; apply Z.ltb_lt; lia). reflexivity.
  - split; [rewrite Hk; rewrite <- (app_nil_r (_ ++ [cdb])); apply peek_own|].
    split; [reflexivity|]. split; [reflexivity|].
    split.
    { intros a. unfold string_at, uscsi_mem, uscsi_reads. cbn [uscsi_rqbuf uscsi_rqlen uscsi_flags uscsi_bufaddr uscsi_buflen].
      change (Z.testbit (c_int USCSI_DEFAULT_FLAGS) 3) with false. cbv iota.
      erewrite poke_eq; [|apply nth_own].
      change (Z.to_nat (c_ubyte 255)) with 255%nat. rewrite overwrite_zeros.
      rewrite Hpad. rewrite firstn_all2 by (rewrite Hpad; lia). reflexivity. }
    split; [discriminate|]. split; [discriminate|].
    intros a. cbn [data_wanted]. rewrite En. reflexivity.
  - split; [rewrite Hk; apply peek_own|].
    split.
    { rewrite c_ull_small by (unfold zlen in *; lia). unfold zlen. rewrite Nat2Z.id.
      rewrite <- (app_nil_r (_ ++ [data])). apply peek_own. }
    split; [reflexivity|].
    split.
    { intros a. unfold string_at, uscsi_mem, uscsi_reads. cbn [uscsi_rqbuf uscsi_rqlen uscsi_flags uscsi_bufaddr uscsi_buflen].
      change (Z.testbit (c_int USCSI_DEFAULT_FLAGS) 3) with false. cbv iota.
      erewrite poke_eq; [|rewrite <- app_assoc; apply nth_own].
      change (Z.to_nat (c_ubyte 255)) with 255%nat. rewrite overwrite_zeros.
      rewrite Hpad. rewrite firstn_all2 by (rewrite Hpad; lia). reflexivity. }
    split.
    { intros a b Hb. rewrite Hlen. inversion Hb; subst. rewrite !app_length. cbn [length]. lia. }
    split; [discriminate|]. reflexivity.
Qed.

Lemma solaris_step : forall (s : ex) me c t h buf t' a,
  world s = SolarisWorld h t buf -> fits64 c -> tgt t (command_of c) (data_out c) = (t', a) ->
  exists r h1 w, scsicmd_create c timeout h = (h1, r) /\
    os_prepare_to_send os c (packet_index s) (at_prepare s) = (with_world (at_prepare s) (SolarisWorld h1 t buf), Ok r) /\
    w = SolarisWorld (uscsi_mem (u_hdr r) a h1) t' (Some (uscsi_done (u_hdr r) a)) /\
    (fails a = false ->
      evaluates (os_send os r) (Send VNone) false (with_world (at_send s r (Some me)) (SolarisWorld h1 t buf))
        (with_world (at_send s r (Some me)) w) (CallReturns (VData (DInt 65)) true)) /\
    (fails a = true ->
      evaluates (os_send os r) (Send VNone) false (with_world (at_send s r (Some me)) (SolarisWorld h1 t buf))
        (with_world (at_send s r (Some me)) (SolarisWorld (uscsi_mem (u_hdr r) a h1) t' (Some (u_hdr r)))) (CallRaises (EIO 5))).
Proof.
  intros s me c t h buf t' a Hw Hf Ht.
  destruct (scsicmd_create c timeout h) as [h1 r] eqn:Hcr. exists r, h1.
  eexists. split; [reflexivity|].
  destruct (uscsi_described _ _ _ _ Hcr Hf) as (E1 & E2 & _).
  split. { cbn [os_prepare_to_send solaris_os]. unfold solaris_prepare, at_prepare. cbn [world with_index].
    rewrite Hw. cbn [s_heap s_dev s_buffer]. rewrite Hcr. reflexivity. }
  split; [reflexivity|].
  split; intros Hfa.
  - apply (solaris_send_ok sense_of (honest_uscsi tgt fails) timeout (with_world (at_send s r (Some me)) (SolarisWorld h1 t buf))).
    cbn [world with_world s_heap s_dev]. unfold honest_uscsi. rewrite E1, E2, Ht, Hfa. reflexivity.
  - eapply (solaris_send_fails sense_of (honest_uscsi tgt fails) timeout (with_world (at_send s r (Some me)) (SolarisWorld h1 t buf))).
    cbn [world with_world s_heap s_dev]. unfold honest_uscsi. rewrite E1, E2, Ht, Hfa. reflexivity.
Qed.

Theorem solaris_call : forall (s : ex) me c t h buf t' a,
  pending s = [] -> packet_index s = 0 -> 1 <= max_queue_size s -> ~ In me (map fst (cb_log s)) ->
  world s = SolarisWorld h t buf -> fits64 c -> tgt t (command_of c) (data_out c) = (t', a) ->
  byte_status a -> fails a = false ->
  (Z.testbit (a_status a) 1 = true -> sense_of (pad 255 (a_sense a)) = Ok tt) ->
  exists w, call_evaluates (call os me c) s
    (Executer [] (1 mod max_queue_size s) (max_queue_size s)
       (cb_log s ++ [(me, solaris_expected c a)]) w)
    (outcome_of (solaris_expected c a)) /\ s_dev w = t'.
Proof.
  intros s me c t h buf t' a Hp Hi Hm Hl Hw Hf Ht Hb Hfa Hse.
  destruct (solaris_step s me c t h buf t' a Hw Hf Ht) as (r & h1 & w & Hcr & Hpr & Hww & Hok & _).
  specialize (Hok Hfa). exists w. split; [|subst w; reflexivity].
  pose proof (call_answered os c me s r (SolarisWorld h1 t buf) w (VData (DInt 65)) true w
    (solaris_expected c a) true) as X.
  rewrite Hi, Hp in X. rewrite Z.add_0_l in X.
  apply X; auto.
  - cbn. lia.
  - destruct (uscsi_described _ _ _ _ Hcr Hf) as (_ & _ & E3 & E4 & E5 & E6 & E7).
    apply (solaris_receive_evaluates sense_of (honest_uscsi tgt fails) timeout
      (with_world (at_send s r (Some me)) w) (uscsi_done (u_hdr r) a)).
    { rewrite Hww. reflexivity. }
    unfold solaris_handle. cbn [uscsi_status uscsi_rqstatus uscsi_rqbuf uscsi_done].
    rewrite land_255, Z.mod_small by exact Hb. unfold SCSI_STATUS_CHECK_CONDITION. rewrite land_2.
    unfold solaris_expected.
    destruct (Z.testbit (a_status a) 1).
    + subst w. cbn [world with_world s_heap]. unfold SENSE_SIZE. rewrite E4. cbn [bind].
      unfold check_condition. rewrite Hse by reflexivity. reflexivity.
    + destruct (a_status a =? 0); cbn [negb]; [|reflexivity]. rewrite E3. cbn [Z.eqb negb].
      assert (Hg : get_os_data (with_world (at_send s r (Some me)) w) 0 = Some r).
      { unfold get_os_data, at_send. cbn. rewrite Hi, dict_get_set_eq. reflexivity. }
      rewrite Hg. unfold USCSI_READ. rewrite land_8. specialize (E7 a).
      destruct (Z.testbit (uscsi_flags (u_hdr r)) 3 && negb (uscsi_buflen (u_hdr r) =? 0)) eqn:E8;
        [|rewrite <- E7; reflexivity].
      apply andb_prop in E8. destruct E8 as [E8 _]. specialize (E6 E8).
      destruct (u_data_buffer r) as [p|]; [|congruence]. specialize (E5 a p eq_refl).
      subst w. cbn [world with_world s_heap]. unfold raw_of. rewrite E7.
      rewrite <- E7. destruct (nth_error (uscsi_mem (u_hdr r) a h1) p) eqn:E9; [reflexivity|].
      apply nth_error_None in E9. lia.
Qed.

(** A status that makes the ioctl fail is not looked at. *)
Theorem solaris_ioctl_error : forall (s : ex) me c t h buf t' a,
  zlen (pending s) < max_queue_size s -> dict_get (packet_index s) (pending s) = None ->
  world s = SolarisWorld h t buf -> fits64 c -> tgt t (command_of c) (data_out c) = (t', a) ->
  fails a = true ->
  exists s', call_evaluates (call os me c) s s' (CallRaises (EIO 5)) /\
    pending s' = pending s /\ cb_log s' = cb_log s /\ s_dev (world s') = t'.
Proof.
  intros s me c t h buf t' a Hroom Hfree Hw Hf Ht Hfa.
  destruct (solaris_step s me c t h buf t' a Hw Hf Ht) as (r & h1 & w & Hcr & Hpr & Hww & _ & Herr).
  specialize (Herr Hfa).
  eexists. split; [exact (call_send_error_at os c me s r _ _ _ Hroom Hpr Herr Hfree)|]. cbn. auto.
Qed.

(** Every response is labelled with packet id 0: with another current packet id the
    command is not completed. *)
Theorem solaris_other_packet : forall (s : ex) me c t h buf t' a,
  zlen (pending s) < max_queue_size s -> packet_index s <> 0 -> dict_get 0 (pending s) = None ->
  ~ In me (map fst (cb_log s)) ->
  world s = SolarisWorld h t buf -> fits64 c -> tgt t (command_of c) (data_out c) = (t', a) ->
  byte_status a -> fails a = false ->
  (Z.testbit (a_status a) 1 = true -> sense_of (pad 255 (a_sense a)) = Ok tt) ->
  exists s', call_evaluates (call os me c) s s'
      (CallRaises (if a_status a =? 0 then EAttribute else EAsiInternal)) /\
    (exists r, dict_get (packet_index s) (pending s') = Some (r, Some me)) /\ cb_log s' = cb_log s /\ s_dev (world s') = t'.
Proof.
  intros s me c t h buf t' a Hroom Hi Hfree Hl Hw Hf Ht Hb Hfa Hse.
  destruct (solaris_step s me c t h buf t' a Hw Hf Ht) as (r & h1 & w & Hcr & Hpr & Hww & Hok & _).
  specialize (Hok Hfa).
  destruct (uscsi_described _ _ _ _ Hcr Hf) as (_ & _ & E3 & E4 & _).
  assert (Hg : get_os_data (with_world (at_send s r (Some me)) w) 0 = None).
  { unfold get_os_data, at_send. cbn. rewrite dict_get_set_neq by auto. rewrite Hfree. reflexivity. }
  destruct (Z.eqb_spec (a_status a) 0) as [E|E].
  - exists (with_world (at_send s r (Some me)) w). split.
    + apply (call_receive_error_at os c me s r (SolarisWorld h1 t buf) w (VData (DInt 65)) true w EAttribute); auto.
      apply (solaris_receive_raises sense_of (honest_uscsi tgt fails) timeout
        (with_world (at_send s r (Some me)) w) (uscsi_done (u_hdr r) a)).
      { rewrite Hww. reflexivity. }
      unfold solaris_handle. cbn [uscsi_status uscsi_rqstatus uscsi_rqbuf uscsi_done].
      rewrite E, E3, Hg. reflexivity.
    + split; [exists r; cbn; apply dict_get_set_eq|]. split; [reflexivity|]. rewrite Hww. reflexivity.
  - exists (with_world (at_send s r (Some me)) w). split.
    + eapply (call_misrouted os c me s r (SolarisWorld h1 t buf) w (VData (DInt 65)) true w
        (if Z.testbit (a_status a) 1 then RespExn (EAsiCheckCondition (pad 255 (a_sense a))) else RespExn EAsiSCSI) 0); auto.
      apply (solaris_receive_evaluates sense_of (honest_uscsi tgt fails) timeout
        (with_world (at_send s r (Some me)) w) (uscsi_done (u_hdr r) a)).
      { rewrite Hww. reflexivity. }
      unfold solaris_handle. cbn [uscsi_status uscsi_rqstatus uscsi_rqbuf uscsi_done].
      rewrite land_255, Z.mod_small by exact Hb. unfold SCSI_STATUS_CHECK_CONDITION. rewrite land_2.
      destruct (Z.testbit (a_status a) 1).
      * subst w. cbn [world with_world s_heap]. unfold SENSE_SIZE. rewrite E4. cbn [bind].
        unfold check_condition. rewrite Hse by reflexivity. reflexivity.
      * destruct (Z.eqb_spec (a_status a) 0); [contradiction|]. reflexivity.
    + split; [exists r; cbn; apply dict_get_set_eq|]. split; [reflexivity|]. rewrite Hww. reflexivity.
Qed.
End SolarisCall.
