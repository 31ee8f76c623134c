(** Lemmas on time limits (C92). *)
From Coq Require Import ZArith List Bool Lia.
From Verif Require Import Base BaseFacts Gen SpecGen GenFacts Executer SpecCall ExecFacts ExecGenFacts ExecStepFacts
  OsCommon OsLinux OsSolaris OsAix OsWin32 ExampleGens OsFacts SpecSg SpecDrivers SpecSession LinuxFacts SolarisFacts AixFacts WinFacts
  SessionFacts Sense SpecSense SenseFacts SpecPortable PortableFacts Contexts SpecTimeout.
Import ListNotations.
Local Open Scope Z_scope.

(** ** One call, whatever the driver *)

Lemma send_error_world : forall R W O C (os : os_layer R W O C) c me s r w0 w e,
  zlen (pending s) < max_queue_size s ->
  os_prepare_to_send os c (packet_index s) (at_prepare s) = (with_world (at_prepare s) w0, Ok r) ->
  evaluates (os_send os r) (Send VNone) false (with_world (at_send s r (Some me)) w0) (with_world (at_send s r (Some me)) w) (CallRaises e) ->
  dict_get (packet_index s) (pending s) = None ->
  exists s', call_evaluates (call os me c) s s' (CallRaises e) /\ world s' = w.
Proof.
  intros. pose proof (begin_ok os c (Some me) s r w0 H H0) as Hb.
  assert (Ha : send_abort (packet_index s) e (with_world (at_send s r (Some me)) w)
    = (with_pending (with_world (at_send s r (Some me)) w) (pending s), e)).
  { unfold send_abort. cbn. rewrite dict_get_set_eq. rewrite dict_del_set by auto. reflexivity. }
  eexists. split.
  - eapply ev_call_raise; [reflexivity|eapply send_fails; eauto|]. rewrite Ha. apply ev_raise. reflexivity.
  - cbn. auto.
Qed.

Section Linux.
Context {D A : Type} (sense_of : bytes -> result unit) (drv : sg_driver D) (timeout : Z).
Notation ex := (executer sgio (linux_world D)).
Notation os := (linux_os (A := A) sense_of drv timeout).
Notation ios := (linux_ioctl_os (A := A) sense_of drv timeout).

(** The driver takes the request and later gives it back with the answer [a]. *)
Lemma linux_any : forall (s : ex) me c h d buf h1 r d1 n d2 a,
  pending s = [] -> 1 <= max_queue_size s <= 2 ^ 31 -> 0 <= packet_index s < max_queue_size s ->
  ~ In me (map fst (cb_log s)) -> world s = LinuxWorld h d buf -> fits c ->
  sgio_create (packet_index s) c timeout h = (h1, r) ->
  sg_write drv (hdr r) h1 d = (h1, d1, Ok n) ->
  sg_read drv h1 d1 = (completed_mem (hdr r) a h1, d2, Ok (Some (completed_hdr (hdr r) a))) ->
  (is_check_condition (a_status a) (a_driver a) = true -> sense_of (pad 255 (a_sense a)) = Ok tt) ->
  exists s', call_evaluates (call os me c) s s' (outcome_of (linux_expected c a)) /\ l_dev (world s') = d2.
Proof.
  intros s me c h d buf h1 r d1 n d2 a Hp Hmax Hidx Hlog Hw Hfit Hcr Hwr Hrd Hsense.
  pose proof (created_sense timeout _ _ _ _ _ Hcr) as [_ [_ [_ Hpid]]].
  rewrite c_int_small in Hpid by lia.
  eexists. split.
  - apply (call_answered os c me s r (LinuxWorld h1 d buf) (LinuxWorld h1 d1 buf)
      (VData (DInt n)) true (LinuxWorld (completed_mem (hdr r) a h1) d2 buf)
      (linux_expected c a) true); auto.
    + rewrite Hp. cbn. lia.
    + cbn [os_prepare_to_send linux_os]. unfold linux_prepare, at_prepare. cbn [world with_index].
      rewrite Hw. cbn [l_heap l_dev l_buffer]. rewrite Hcr. reflexivity.
    + eapply ev_value.
      * cbn [os_send linux_os linux_send resume world with_world l_heap l_dev l_buffer]. rewrite Hwr. reflexivity.
      * apply vdata_not_exn.
      * apply ev_finish; [reflexivity|apply vdata_not_exn].
    + assert (Hh : linux_handle sense_of (Some (completed_hdr (hdr r) a))
          (with_world (at_send s r (Some me)) (LinuxWorld (completed_mem (hdr r) a h1) d2 buf))
          = Ok (linux_expected c a, packet_index s)).
      { destruct (created_bounds timeout _ _ _ _ _ Hcr) as [Hb1 Hb2].
        rewrite (linux_handle_spec sense_of _ _ r (Some me) (pad 255 (a_sense a))).
        - cbn [status host_status driver_status completed_hdr pack_id]. rewrite Hpid.
          change (l_heap (world (with_world (at_send s r (Some me)) (LinuxWorld (completed_mem (hdr r) a h1) d2 buf))))
            with (completed_mem (hdr r) a h1).
          rewrite (created_data_read timeout _ _ _ _ _ a Hcr Hfit). reflexivity.
        - cbn [pack_id completed_hdr]. rewrite Hpid. cbn. apply dict_get_set_eq.
        - cbn [status driver_status completed_hdr sbp]. intros Hcc. split; auto.
          apply (created_sense_read timeout _ _ _ _ _ a Hcr).
        - intros p Hp0. apply Hb1; auto.
        - auto. }
      exact (linux_receive_evaluates sense_of drv timeout
        (with_world (at_send s r (Some me)) (LinuxWorld h1 d1 buf)) _ _ _ _ _ _ Hrd Hh).
    + rewrite Hp. reflexivity.
  - reflexivity.
Qed.

(** Reading fails. *)
Lemma linux_unread : forall (s : ex) me c h d buf h1 r d1 n d2 e,
  pending s = [] -> 1 <= max_queue_size s ->
  ~ In me (map fst (cb_log s)) -> world s = LinuxWorld h d buf ->
  sgio_create (packet_index s) c timeout h = (h1, r) ->
  sg_write drv (hdr r) h1 d = (h1, d1, Ok n) ->
  sg_read drv h1 d1 = (h1, d2, Err e) ->
  exists s', call_evaluates (call os me c) s s' (CallRaises e) /\
    dict_get (packet_index s) (pending s') = Some (r, Some me) /\ cb_log s' = cb_log s.
Proof.
  intros s me c h d buf h1 r d1 n d2 e Hp Hmax Hlog Hw Hcr Hwr Hrd.
  apply (call_receive_error os c me s r (LinuxWorld h1 d buf) (LinuxWorld h1 d1 buf) (VData (DInt n)) true (LinuxWorld h1 d2 buf) e); auto.
  - rewrite Hp. cbn. lia.
  - cbn [os_prepare_to_send linux_os]. unfold linux_prepare, at_prepare. cbn [world with_index].
    rewrite Hw. cbn [l_heap l_dev l_buffer]. rewrite Hcr. reflexivity.
  - eapply ev_value.
    + cbn [os_send linux_os linux_send resume world with_world l_heap l_dev l_buffer]. rewrite Hwr. reflexivity.
    + apply vdata_not_exn.
    + apply ev_finish; [reflexivity|apply vdata_not_exn].
  - apply ev_raise. cbn [os_receive linux_os linux_receive resume world with_world l_heap l_dev l_buffer]. rewrite Hrd. reflexivity.
Qed.

(** With the ioctl. *)
Lemma ioctl_any : forall (s : ex) me c h d buf h1 r d1 q a,
  pending s = [] -> 1 <= max_queue_size s <= 2 ^ 31 -> 0 <= packet_index s < max_queue_size s ->
  ~ In me (map fst (cb_log s)) -> world s = LinuxWorld h d buf -> fits c ->
  sgio_create (packet_index s) c timeout h = (h1, r) ->
  sg_ioctl drv (hdr r) h1 d = (completed_mem (hdr r) a h1, d1, Ok q) ->
  exists s', call_evaluates (call ios me c) s s' (outcome_of (RespData (data_wanted c (a_data a)))) /\ l_dev (world s') = d1.
Proof.
  intros s me c h d buf h1 r d1 q a Hp Hmax Hidx Hlog Hw Hfit Hcr Hio.
  pose proof (created_sense timeout _ _ _ _ _ Hcr) as [_ [_ [_ Hpid]]].
  rewrite c_int_small in Hpid by lia.
  pose proof (created_fresh timeout _ _ _ _ _ Hcr) as [Hf1 [Hf2 Hf3]].
  eexists. split.
  - apply (call_answered ios c me s r (LinuxWorld h1 d buf) (LinuxWorld (completed_mem (hdr r) a h1) d1 (Some (hdr r)))
      (VData (DInt 88)) true (LinuxWorld (completed_mem (hdr r) a h1) d1 (Some (hdr r)))
      (RespData (data_wanted c (a_data a))) true); auto.
    + rewrite Hp. cbn. lia.
    + cbn [os_prepare_to_send linux_ioctl_os]. unfold linux_prepare, at_prepare. cbn [world with_index].
      rewrite Hw. cbn [l_heap l_dev l_buffer]. rewrite Hcr. reflexivity.
    + eapply ev_value.
      * cbn [os_send linux_ioctl_os linux_ioctl_send resume world with_world l_heap l_dev l_buffer]. rewrite Hio. reflexivity.
      * apply vdata_not_exn.
      * apply ev_finish; [reflexivity|apply vdata_not_exn].
    + assert (Hh : linux_handle sense_of (Some (hdr r))
          (with_world (at_send s r (Some me)) (LinuxWorld (completed_mem (hdr r) a h1) d1 (Some (hdr r))))
          = Ok (RespData (data_wanted c (a_data a)), packet_index s)).
      { destruct (created_bounds timeout _ _ _ _ _ Hcr) as [Hb1 Hb2].
        rewrite (linux_handle_spec sense_of _ _ r (Some me) []).
        - rewrite Hf1, Hf2, Hf3, Hpid. cbn [is_check_condition is_clean].
          change (l_heap (world (with_world (at_send s r (Some me)) (LinuxWorld (completed_mem (hdr r) a h1) d1 (Some (hdr r))))))
            with (completed_mem (hdr r) a h1).
          rewrite (created_data_read timeout _ _ _ _ _ a Hcr Hfit). reflexivity.
        - rewrite Hpid. cbn. apply dict_get_set_eq.
        - rewrite Hf1, Hf3. discriminate.
        - intros p Hp0. apply Hb1; auto.
        - auto. }
      eapply ev_value; [reflexivity|apply vdata_not_exn|].
      eapply ev_value; [|apply vdata_not_exn|].
      * cbn [linux_receive_handle resume]. rewrite Hh. reflexivity.
      * apply ev_finish; [reflexivity|apply vdata_not_exn].
    + rewrite Hp. reflexivity.
  - reflexivity.
Qed.
End Linux.

(** The limits in created requests. *)
Lemma sgio_limit : forall idx c timeout h h' r, sgio_create idx c timeout h = (h', r) -> 0 <= timeout < 2 ^ 32 ->
  hdr_timeout (hdr r) = timeout.
Proof.
  intros idx c timeout h h' r H Ht. rewrite <- (c_uint_small timeout Ht) at 1. unfold sgio_create, alloc in H.
  destruct c as [cdb n|cdb data]; [destruct (0 <? n)|]; inversion H; subst; reflexivity.
Qed.
Lemma scsicmd_limit : forall c timeout h h' r, scsicmd_create c timeout h = (h', r) -> uscsi_timeout (u_hdr r) = c_short timeout.
Proof.
  intros c timeout h h' r H. unfold scsicmd_create, alloc in H.
  destruct c as [cdb n|cdb data]; [destruct (0 <? n)|]; inversion H; subst; reflexivity.
Qed.
Lemma passthru_limit : forall c timeout h h' q b, passthru_create c timeout h = (h', q, b) -> timeout_value q = c_uint timeout.
Proof.
  intros c timeout h h' q b H. unfold passthru_create, alloc in H.
  destruct c as [cdb n|cdb data]; [destruct (0 <? n)|]; inversion H; subst; reflexivity.
Qed.

Lemma short_same : forall z, -32768 <= z < 32768 -> c_short z = z.
Proof. intros. unfold c_short, c_signed. rewrite Z.mod_small; lia. Qed.

(** ** Solaris, AIX, Windows: as over a device whose answers are those within the limit *)
Section Others.
Context {T A : Type} (sense_of : bytes -> result unit) (tgt : timed_target T) (m : machine T) (timeout : Z).

Lemma solaris_any : forall (s : executer scsicmd (solaris_world T)) me c t h buf t' a,
  pending s = [] -> packet_index s = 0 -> 1 <= max_queue_size s -> ~ In me (map fst (cb_log s)) ->
  world s = SolarisWorld h t buf -> fits64 c ->
  within tgt m (seconds (c_short timeout)) t (command_of c) (data_out c) = (t', a) ->
  byte_status a -> (Z.testbit (a_status a) 1 = true -> sense_of (pad 255 (a_sense a)) = Ok tt) ->
  exists s', call_evaluates (call (solaris_os (A := A) sense_of (timed_uscsi tgt m) timeout) me c) s s'
    (if a_host a =? 0 then outcome_of (solaris_expected c a) else CallRaises (EIO 5)) /\ s_dev (world s') = t'.
Proof.
  intros s me c t h buf t' a Hp Hi Hm Hl Hw Hf Ht Hb Hse.
  destruct (scsicmd_create c timeout h) as [h1 r] eqn:Hcr.
  pose proof (scsicmd_limit _ _ _ _ _ Hcr) as Hlim.
  destruct (uscsi_described timeout _ _ _ _ Hcr Hf) as (E1 & E2 & E3 & E4 & E5 & E6 & E7).
  set (os := solaris_os (A := A) sense_of (timed_uscsi tgt m) timeout).
  assert (Hpr : os_prepare_to_send os c (packet_index s) (at_prepare s) = (with_world (at_prepare s) (SolarisWorld h1 t buf), Ok r)).
  { unfold os. cbn [os_prepare_to_send solaris_os]. unfold solaris_prepare, at_prepare. cbn [world with_index].
    rewrite Hw. cbn [s_heap s_dev s_buffer]. rewrite Hcr. reflexivity. }
  assert (Hroom : zlen (pending s) < max_queue_size s) by (rewrite Hp; cbn; lia).
  assert (Hfree : dict_get (packet_index s) (pending s) = None) by (rewrite Hp; reflexivity).
  destruct (a_host a =? 0) eqn:Eh.
  - set (w := SolarisWorld (uscsi_mem (u_hdr r) a h1) t' (Some (uscsi_done (u_hdr r) a))).
    eexists. split; [apply (call_answered os c me s r (SolarisWorld h1 t buf) w (VData (DInt 65)) true w (solaris_expected c a) true); auto|reflexivity].
    + apply (solaris_send_ok sense_of (timed_uscsi tgt m) timeout (with_world (at_send s r (Some me)) (SolarisWorld h1 t buf))).
      cbn [world with_world s_heap s_dev]. unfold timed_uscsi, honest_uscsi. rewrite Hlim, E1, E2, Ht, Eh. reflexivity.
    + rewrite Hi. apply (solaris_receive_evaluates sense_of (timed_uscsi tgt m) timeout
        (with_world (at_send s r (Some me)) w) (uscsi_done (u_hdr r) a)); [reflexivity|].
      unfold solaris_handle. cbn [uscsi_status uscsi_rqstatus uscsi_rqbuf uscsi_done].
      rewrite land_255, Z.mod_small by exact Hb. unfold SCSI_STATUS_CHECK_CONDITION. rewrite land_2.
      unfold solaris_expected.
      destruct (Z.testbit (a_status a) 1).
      * unfold w. cbn [world with_world s_heap]. unfold SENSE_SIZE. rewrite E4. cbn [bind].
        unfold check_condition. rewrite Hse by reflexivity. reflexivity.
      * destruct (a_status a =? 0); cbn [negb]; [|reflexivity]. rewrite E3. cbn [Z.eqb negb].
        assert (Hg : get_os_data (with_world (at_send s r (Some me)) w) 0 = Some r).
        { unfold get_os_data, at_send. cbn. rewrite Hi, dict_get_set_eq. reflexivity. }
        rewrite Hg. unfold USCSI_READ. rewrite land_8. specialize (E7 a).
        destruct (Z.testbit (uscsi_flags (u_hdr r)) 3 && negb (uscsi_buflen (u_hdr r) =? 0)) eqn:E8;
          [|rewrite <- E7; reflexivity].
        apply andb_prop in E8. destruct E8 as [E8 _]. specialize (E6 E8).
        destruct (u_data_buffer r) as [p|]; [|congruence]. specialize (E5 a p eq_refl).
        unfold w. cbn [world with_world s_heap]. unfold raw_of. rewrite E7.
        rewrite <- E7. destruct (nth_error (uscsi_mem (u_hdr r) a h1) p) eqn:E9; [reflexivity|].
        apply nth_error_None in E9. lia.
  - destruct (send_error_world _ _ _ _ os c me s r (SolarisWorld h1 t buf)
      (SolarisWorld (uscsi_mem (u_hdr r) a h1) t' (Some (u_hdr r))) (EIO 5) Hroom Hpr) as (s' & X & Y).
    + apply (solaris_send_fails sense_of (timed_uscsi tgt m) timeout (with_world (at_send s r (Some me)) (SolarisWorld h1 t buf)) r _ _ (uscsi_done (u_hdr r) a)).
      cbn [world with_world s_heap s_dev]. unfold timed_uscsi, honest_uscsi. rewrite Hlim, E1, E2, Ht, Eh. reflexivity.
    + exact Hfree.
    + exists s'. split; [exact X|]. rewrite Y. reflexivity.
Qed.

Lemma aix_any : forall (s : executer passthru (aix_world T)) me c t h objs buf t' a,
  pending s = [] -> packet_index s = 0 -> 1 <= max_queue_size s -> ~ In me (map fst (cb_log s)) ->
  world s = AixWorld h objs t buf -> aix_fits c ->
  within tgt m (seconds (c_uint timeout)) t (command_of c) (data_out c) = (t', a) ->
  (Z.testbit (a_status a) 1 = true -> sense_of (pad 255 (a_sense a)) = Ok tt) ->
  exists s', call_evaluates (call (aix_os (A := A) sense_of (timed_sc tgt m) timeout (by_ctypes m)) me c) s s'
    (outcome_of (aix_expected c a)) /\ x_dev (world s') = t'.
Proof.
  intros s me c t h objs buf t' a Hp Hi Hm Hl Hw Hf Ht Hse.
  destruct (passthru_create c timeout h) as [[h1 q] b] eqn:Hcr.
  pose proof (passthru_limit _ _ _ _ _ _ Hcr) as Hlim.
  destruct (sc_described timeout _ _ _ _ _ Hcr Hf) as (E1 & E2 & _).
  set (os := aix_os (A := A) sense_of (timed_sc tgt m) timeout (by_ctypes m)).
  set (r := Passthru (length objs) b). set (w0 := AixWorld h1 (objs ++ [q]) t buf).
  set (w := AixWorld (sc_mem q a h1) (put_obj (length objs) (sc_done q a) (objs ++ [q])) t' (Some (sc_done q a))).
  assert (Hpr : os_prepare_to_send os c (packet_index s) (at_prepare s) = (with_world (at_prepare s) w0, Ok r)).
  { unfold os. rewrite (aix_prepared sense_of (timed_sc tgt m) timeout (by_ctypes m) s c _ h1 q b Hw); [reflexivity|exact Hcr]. }
  assert (Hsend : evaluates (os_send os r) (Send VNone) false (with_world (at_send s r (Some me)) w0)
      (with_world (at_send s r (Some me)) w) (CallReturns (VData (DInt 168)) true)).
  { destruct (aix_send_spec (A := A) sense_of (timed_sc tgt m) timeout (by_ctypes m)
      (with_world (at_send s r (Some me)) w0) r q (sc_mem q a h1) t' (sc_done q a) (negb (sc_validity a =? 0)) (nth_new _ _ _)) as [_ X].
    { cbn [world with_world x_heap x_dev w0]. unfold timed_sc, honest_sc. rewrite Hlim, E1, E2, Ht. reflexivity. }
    apply X. right. cbn [einval_arg sc_done status_validity].
    destruct (Z.eqb_spec (sc_validity a) 0); [left; reflexivity|right; auto]. }
  eexists. split; [apply (call_answered os c me s r w0 w (VData (DInt 168)) true w (aix_expected c a) true); auto|reflexivity].
  - rewrite Hp. cbn. lia.
  - rewrite Hi. apply (aix_receive_evaluates sense_of (timed_sc tgt m) timeout (by_ctypes m)
      (with_world (at_send s r (Some me)) w) (sc_done q a)); [reflexivity|].
    apply (aix_verdict sense_of timeout _ r (Some me) c h h1 q objs t' a); auto.
    cbn. rewrite Hi. apply dict_get_set_eq.
  - rewrite Hp. reflexivity.
Qed.

Lemma win_any : forall (s : executer spt (win_world T)) me c t h objs inc t' a,
  pending s = [] -> 1 <= max_queue_size s -> ~ In me (map fst (cb_log s)) ->
  world s = WinWorld h objs t inc -> win_fits c ->
  within tgt m (Some 10000) t (command_of c) (data_out c) = (t', a) ->
  (a_status a = 2 -> sense_of (pad 255 (a_sense a)) = Ok tt) ->
  exists s', call_evaluates (call (win_os (A := A) sense_of (timed_win tgt m)) me c) s s'
    (if a_host a =? 0 then outcome_of (win_expected c a) else CallRaises EAsiOS) /\ w_dev (world s') = t'.
Proof.
  intros s me c t h objs inc t' a Hp Hm Hl Hw Hf Ht Hse.
  destruct (spt_block c h Hf) as (h1 & q & b & Hcr & _ & _ & _ & _ & _ & _ & Hlim & _).
  destruct (spt_described _ _ _ _ _ Hcr Hf) as (E1 & E2 & _).
  assert (Hcr2 : spt_create c (w_heap (world s)) = Ok (h1, q, b)) by (rewrite Hw; exact Hcr).
  pose proof (win_prepared s c _ _ _ _ eq_refl Hcr2) as Hpr.
  set (os := win_os (A := A) sense_of (timed_win tgt m)).
  set (r := Spt (length (w_objs (world s))) (packet_index s) b) in *.
  set (w0 := WinWorld h1 (w_objs (world s) ++ [q]) (w_dev (world s)) (incoming_packets (world s))) in *.
  assert (Hroom : zlen (pending s) < max_queue_size s) by (rewrite Hp; cbn; lia).
  assert (Hfree : dict_get (packet_index s) (pending s) = None) by (rewrite Hp; reflexivity).
  assert (Hrun : dev_control (timed_win tgt m) q h1 (w_dev (world s)) =
    if a_host a =? 0 then (spt_mem q a h1, t', spt_done q a, Some (zlen (a_data a))) else (h1, t', q, None)).
  { cbn [dev_control timed_win]. unfold honest_control, spt_run. rewrite Hlim. change (seconds 10) with (Some 10000).
    rewrite E1, E2, Hw. cbn [w_dev]. rewrite Ht. reflexivity. }
  destruct (a_host a =? 0).
  - pose proof (win_send_spec (A := A) sense_of (timed_win tgt m) (with_world (at_send s r (Some me)) w0) r q
      (spt_mem q a h1) t' (spt_done q a) (Some (zlen (a_data a))) (nth_new _ _ _) Hrun) as X.
    cbv beta iota in X.
    match type of X with evaluates _ _ _ _ (with_world _ ?y) _ => set (w := y) in * end.
    set (w' := popped w inc).
    eexists. split; [apply (call_answered os c me s r w0 w (VData (DInt (zlen (a_data a)))) true w' (win_expected c a) true); auto|reflexivity].
    apply (win_receive_evaluates sense_of (with_world (at_send s r (Some me)) w) inc r).
    + cbn. rewrite Hw. reflexivity.
    + apply (win_verdict sense_of _ r c h h1 q a); auto. cbn. apply put_new.
  - pose proof (win_send_spec (A := A) sense_of (timed_win tgt m) (with_world (at_send s r (Some me)) w0) r q
      h1 t' q None (nth_new _ _ _) Hrun) as X.
    cbv beta iota in X.
    destruct (send_error_world _ _ _ _ os c me s r w0 _ EAsiOS Hroom Hpr X Hfree) as (s' & Y & Z0).
    exists s'. split; [exact Y|]. rewrite Z0. reflexivity.
Qed.
End Others.

(** ** What the user sees *)
Section Seen.
Context {T : Type} (tgt : timed_target T) (m : machine T).

Lemma within_eq : forall limit t c t' a ms, tgt t (command_of c) (data_out c) = (t', a, ms) ->
  within tgt m limit t (command_of c) (data_out c) = if late limit ms then (aborted m t, given_up) else (t', a).
Proof. intros limit t c t' a ms H. unfold within. rewrite H. reflexivity. Qed.

Lemma sg_limit_allowed : forall k q, (fst k = CLinux \/ fst k = CLinuxIoctl) -> hdr_timeout q = timeout_of k ->
  sg_limit (sg_default m) q = allowed (sg_default m) k.
Proof. intros k q H E. unfold sg_limit, allowed. rewrite E. destruct H as [-> | ->]; reflexivity. Qed.
Lemma seconds_allowed : forall k n, (fst k = CSolaris \/ fst k = CAix) -> timeout_of k = n -> 0 <= n ->
  seconds n = allowed (sg_default m) k.
Proof.
  intros k n H E N. unfold seconds, allowed. rewrite E.
  replace (n <=? 0) with (n =? 0) by (destruct (Z.eqb_spec n 0), (Z.leb_spec n 0); auto; lia).
  destruct H as [-> | ->]; reflexivity.
Qed.

Lemma asked : forall k c t t' a ms, holds_timeout k ->
  tgt t (command_of c) (data_out c) = (t', a, ms) -> reached a -> zlen (command_of c) <= 16 -> moderate c ->
  (fst k = CLinux -> over_at (allowed (sg_default m) k) ms <= patience m) ->
  let l := late (allowed (sg_default m) k) ms in
  asks tgt m k c t (if l then failure_shown (fst k) c else answer_shown (fst k) c a) (if l then aborted m t else t').
Proof.
  intros k c t t' a ms Hh Ht (Ra & Rb & Rc) H16 Hm Hp l.
  pose proof (fits_linux c H16 Hm) as F1. pose proof (fits_solaris c H16 Hm) as F2.
  pose proof (fits_aix c H16 Hm) as F3. pose proof (fits_win c H16 Hm) as F4.
  assert (S0 : a_status a <> 0 \/ a_driver a <> 0 -> parse_sense (pad 255 (a_sense a)) = Ok tt)
    by (intros X; apply conforming_parses; auto).
  assert (S1 : Z.testbit (a_status a) 1 = true -> parse_sense (pad 255 (a_sense a)) = Ok tt).
  { intros X. apply S0. left. intro E. rewrite E in X. discriminate. }
  assert (Hw : forall limit, limit = allowed (sg_default m) k ->
    within tgt m limit t (command_of c) (data_out c) = if l then (aborted m t, given_up) else (t', a)).
  { intros limit ->. apply within_eq. exact Ht. }
  unfold asks. unfold holds_timeout in Hh. destruct (fst k) eqn:Ek; cbn [default_queue].
  - (* Windows *)
    assert (Ha : allowed (sg_default m) k = Some 10000) by (unfold allowed; rewrite Ek; reflexivity).
    pose proof (Hw (Some 10000) (eq_sym Ha)) as W.
    destruct l.
    + destruct (win_any (A := unit) parse_sense tgt m (executer_init 15 (WinWorld [] [] t [])) 0%nat c t [] [] [] (aborted m t) given_up)
        as (s' & X & Y); auto; try reflexivity; try (cbn; lia); try discriminate.
      exists s'. split; [|exact Y]. apply (sync_user_sees _ _ _ _ _ _ _ _ _ (RespExn EAsiOS)). exact X.
    + destruct (win_any (A := unit) parse_sense tgt m (executer_init 15 (WinWorld [] [] t [])) 0%nat c t [] [] [] t' a)
        as (s' & X & Y); auto; try reflexivity; try (cbn; lia).
      { intros E. apply S1. rewrite E. reflexivity. }
      rewrite Ra in X. exists s'. split; [|exact Y]. apply sync_user_sees. exact X.
  - (* sg *)
    destruct (sgio_create 0 c (timeout_of k) []) as [h1 r] eqn:Hcr.
    pose proof (sgio_limit _ _ _ _ _ _ Hcr Hh) as Hl.
    pose proof (sg_limit_allowed k (hdr r) (or_introl Ek) Hl) as Hal.
    pose proof (Hw _ Hal) as W.
    pose proof (created_cdb (timeout_of k) _ _ _ _ _ Hcr (proj1 F1)) as C1.
    pose proof (created_data (timeout_of k) _ _ _ _ _ Hcr F1) as C2.
    assert (Hpat : (patience m <? over_at (allowed (sg_default m) k) ms) = false) by (apply Z.ltb_ge; auto).
    assert (Hwr : forall t1 a1, (if l then (aborted m t, given_up) else (t', a)) = (t1, a1) ->
      sg_write (timed_sg tgt m) (hdr r) h1 (t, []) = (h1, (t1, [(hdr r, a1, over_at (allowed (sg_default m) k) ms)]), Ok 88)).
    { intros t1 a1 E. cbn [sg_write timed_sg]. unfold timed_write. cbn [fst snd]. rewrite C1, C2, W, E, Ht, Hal. reflexivity. }
    assert (Hrd : forall t1 a1, sg_read (timed_sg tgt m) h1 (t1, [(hdr r, a1, over_at (allowed (sg_default m) k) ms)]) =
      (completed_mem (hdr r) a1 h1, (t1, []), Ok (Some (completed_hdr (hdr r) a1)))).
    { intros t1 a1. cbn [sg_read timed_sg]. unfold timed_read. cbn [fst snd]. rewrite Hpat. reflexivity. }
    destruct l.
    + destruct (linux_any (A := unit) parse_sense (timed_sg tgt m) (timeout_of k) (executer_init 15 (LinuxWorld [] (t, []) None)) 0%nat c
        [] (t, []) None h1 r _ _ _ given_up eq_refl ltac:(cbn; lia) ltac:(cbn; lia) ltac:(cbn; auto) eq_refl F1 Hcr
        (Hwr _ _ eq_refl) (Hrd _ _) ltac:(discriminate)) as (s' & X & Y).
      exists s'. split; [|rewrite Y; reflexivity].
      apply (sync_user_sees _ _ _ _ _ _ _ _ _ (RespExn EAsiSCSI)). exact X.
    + destruct (linux_any (A := unit) parse_sense (timed_sg tgt m) (timeout_of k) (executer_init 15 (LinuxWorld [] (t, []) None)) 0%nat c
        [] (t, []) None h1 r (t', [(hdr r, a, over_at (allowed (sg_default m) k) ms)]) 88 (t', []) a eq_refl ltac:(cbn; lia) ltac:(cbn; lia) ltac:(cbn; auto) eq_refl F1 Hcr
        (Hwr t' a eq_refl) (Hrd _ _)) as (s' & X & Y).
      { intros E. apply S0. destruct (Z.eq_dec (a_status a) 0) as [E1|E1]; [|auto]. right. intro E2.
        unfold is_check_condition in E. rewrite E1, E2 in E. discriminate. }
      exists s'. split; [|rewrite Y; reflexivity]. apply sync_user_sees. exact X.
  - (* SG_IO *)
    destruct (sgio_create 0 c (timeout_of k) []) as [h1 r] eqn:Hcr.
    pose proof (sgio_limit _ _ _ _ _ _ Hcr Hh) as Hl.
    pose proof (sg_limit_allowed k (hdr r) (or_intror Ek) Hl) as Hal.
    pose proof (Hw _ Hal) as W.
    pose proof (created_cdb (timeout_of k) _ _ _ _ _ Hcr (proj1 F1)) as C1.
    pose proof (created_data (timeout_of k) _ _ _ _ _ Hcr F1) as C2.
    assert (Hio : forall t1 a1, (if l then (aborted m t, given_up) else (t', a)) = (t1, a1) ->
      sg_ioctl (timed_sg tgt m) (hdr r) h1 (t, []) = (completed_mem (hdr r) a1 h1, (t1, []), Ok (completed_hdr (hdr r) a1))).
    { intros t1 a1 E. cbn [sg_ioctl timed_sg]. unfold timed_ioctl. cbn [fst snd]. rewrite C1, C2, W, E. reflexivity. }
    destruct l.
    + destruct (ioctl_any (A := unit) parse_sense (timed_sg tgt m) (timeout_of k) (executer_init 1 (LinuxWorld [] (t, []) None)) 0%nat c
        [] (t, []) None h1 r _ _ given_up eq_refl ltac:(cbn; lia) ltac:(cbn; lia) ltac:(cbn; auto) eq_refl F1 Hcr (Hio _ _ eq_refl)) as (s' & X & Y).
      exists s'. split; [|rewrite Y; reflexivity]. apply sync_user_sees. exact X.
    + destruct (ioctl_any (A := unit) parse_sense (timed_sg tgt m) (timeout_of k) (executer_init 1 (LinuxWorld [] (t, []) None)) 0%nat c
        [] (t, []) None h1 r (t', []) _ a eq_refl ltac:(cbn; lia) ltac:(cbn; lia) ltac:(cbn; auto) eq_refl F1 Hcr (Hio t' a eq_refl)) as (s' & X & Y).
      exists s'. split; [|rewrite Y; reflexivity]. apply sync_user_sees. exact X.
  - (* Solaris *)
    assert (Es : c_short (timeout_of k) = timeout_of k) by (apply short_same; lia).
    pose proof (Hw _ (seconds_allowed k _ (or_introl Ek) eq_refl (proj1 Hh))) as W. rewrite <- Es in W.
    destruct l.
    + destruct (solaris_any (A := unit) parse_sense tgt m (timeout_of k) (executer_init 1 (SolarisWorld [] t None)) 0%nat c t [] None (aborted m t) given_up)
        as (s' & X & Y); auto; try reflexivity; try (cbn; lia); try exact W; try discriminate; try (unfold byte_status; cbn; lia).
      exists s'. split; [|exact Y]. apply (sync_user_sees _ _ _ _ _ _ _ _ _ (RespExn (EIO 5))). exact X.
    + destruct (solaris_any (A := unit) parse_sense tgt m (timeout_of k) (executer_init 1 (SolarisWorld [] t None)) 0%nat c t [] None t' a)
        as (s' & X & Y); auto; try reflexivity; try (cbn; lia).
      rewrite Ra in X. exists s'. split; [|exact Y]. apply sync_user_sees. exact X.
  - (* AIX *)
    assert (Es : c_uint (timeout_of k) = timeout_of k) by (apply c_uint_small; lia).
    pose proof (Hw _ (seconds_allowed k _ (or_intror Ek) eq_refl (proj1 Hh))) as W. rewrite <- Es in W.
    destruct l.
    + destruct (aix_any (A := unit) parse_sense tgt m (timeout_of k) (executer_init 1 (AixWorld [] [] t None)) 0%nat c t [] [] None (aborted m t) given_up)
        as (s' & X & Y); auto; try reflexivity; try (cbn; lia); try exact W; try discriminate.
      exists s'. split; [|exact Y]. apply (sync_user_sees _ _ _ _ _ _ _ _ _ (RespExn EAsiSCSI)). exact X.
    + destruct (aix_any (A := unit) parse_sense tgt m (timeout_of k) (executer_init 1 (AixWorld [] [] t None)) 0%nat c t [] [] None t' a)
        as (s' & X & Y); auto; try reflexivity; try (cbn; lia).
      exists s'. split; [|exact Y]. apply sync_user_sees. exact X.
Qed.

(** Longer than the reader waits. *)
Lemma asked_too_long : forall timeout c t t' a ms, 0 <= timeout < 4294967296 ->
  tgt t (command_of c) (data_out c) = (t', a, ms) -> zlen (command_of c) <= 16 -> moderate c ->
  patience m < over_at (allowed (sg_default m) (CLinux, Some timeout)) ms ->
  exists s', sync_wait_ends (call (linux_os (A := unit) parse_sense (timed_sg tgt m) timeout) 0%nat c)
      (executer_init 15 (LinuxWorld [] (t, []) None)) s' (Threw (EIO 0)) /\
    (exists r, dict_get 0 (pending s') = Some (r, Some 0%nat)) /\ cb_log s' = [].
Proof.
  intros timeout c t t' a ms Hh Ht H16 Hm Hp.
  pose proof (fits_linux c H16 Hm) as F1.
  destruct (sgio_create 0 c timeout []) as [h1 r] eqn:Hcr.
  pose proof (sgio_limit _ _ _ _ _ _ Hcr Hh) as Hl.
  pose proof (sg_limit_allowed (CLinux, Some timeout) (hdr r) (or_introl eq_refl) Hl) as Hal.
  pose proof (created_cdb timeout _ _ _ _ _ Hcr (proj1 F1)) as C1.
  pose proof (created_data timeout _ _ _ _ _ Hcr F1) as C2.
  assert (Hpat : (patience m <? over_at (allowed (sg_default m) (CLinux, Some timeout)) ms) = true) by (apply Z.ltb_lt; auto).
  set (l := late (allowed (sg_default m) (CLinux, Some timeout)) ms).
  destruct (if l then (aborted m t, given_up) else (t', a)) as [t1 a1] eqn:E.
  set (d1 := (t1, [(hdr r, a1, over_at (allowed (sg_default m) (CLinux, Some timeout)) ms)])).
  destruct (linux_unread (A := unit) parse_sense (timed_sg tgt m) timeout (executer_init 15 (LinuxWorld [] (t, []) None)) 0%nat c
      [] (t, []) None h1 r d1 88 d1 (EIO 0) eq_refl ltac:(cbn; lia) ltac:(cbn; auto) eq_refl Hcr) as (s' & X & Y & Z0).
  - cbn [sg_write timed_sg]. unfold timed_write. cbn [fst snd]. rewrite C1, C2, Hal. rewrite (within_eq _ t c t' a ms Ht).
    fold l. rewrite E, Ht. reflexivity.
  - cbn [sg_read timed_sg]. unfold timed_read, d1. cbn [fst snd]. rewrite Hpat. reflexivity.
  - exists s'. split; [apply sync_wait_raise; exact X|]. split; [eauto|exact Z0].
Qed.
End Seen.

(** ** The managers *)
Lemma handed_over : forall V m p open_result close_result (body : executer_class * option Z -> result V) k,
  executer_shown m p = Some k -> open_result = Ok tt ->
  exists timeout, with_statement m p open_result close_result body =
    ([Opened (file_shown p); Closed], match close_result with Ok _ => body (k, timeout) | Err e => Err e end) /\
    holds_timeout (k, timeout) /\
    ((k = CLinuxIoctl -> p = PLinux) -> forall default, allowed default (k, timeout) = Some (limit_ms m p)).
Proof.
  intros V m p o cl body k H ->.
  exists (match m with MLinuxSg => Some 3000 | _ => None end).
  destruct m, p; try discriminate H; injection H as <-;
    (split; [unfold with_statement; cbn; match goal with |- context [body ?x] => destruct (body x) end; destruct cl; reflexivity|];
     split; [cbn; lia || exact Logic.I|]; intros X default; try (specialize (X eq_refl); discriminate X); reflexivity).
Qed.

Lemma managed : forall T (tgt : timed_target T) mc m p k c t t' a ms,
  executer_shown m p = Some k -> (k = CLinuxIoctl -> p = PLinux) -> 60000 <= patience mc ->
  tgt t (command_of c) (data_out c) = (t', a, ms) -> reached a -> zlen (command_of c) <= 16 -> moderate c ->
  exists timeout,
    (forall V (body : executer_class * option Z -> result V),
      with_statement m p (Ok tt) (Ok tt) body = ([Opened (file_shown p); Closed], body (k, timeout))) /\
    (ms <= limit_ms m p -> asks tgt mc (k, timeout) c t (answer_shown k c a) t') /\
    (limit_ms m p < ms -> asks tgt mc (k, timeout) c t (failure_shown k c) (aborted mc t)).
Proof.
  intros T tgt mc m p k c t t' a ms H Hd Hpat Ht Ra H16 Hm.
  assert (exists timeout, (forall V (body : executer_class * option Z -> result V),
      with_statement m p (Ok tt) (Ok tt) body = ([Opened (file_shown p); Closed], body (k, timeout))) /\
      holds_timeout (k, timeout) /\ forall default, allowed default (k, timeout) = Some (limit_ms m p)) as (timeout & E & Hh & Hal).
  { exists (match m with MLinuxSg => Some 3000 | _ => None end).
    destruct m, p; try discriminate H; injection H as <-; try (specialize (Hd eq_refl); discriminate Hd);
      (split; [intros V body; unfold with_statement; cbn; match goal with |- context [body ?x] => destruct (body x) end; reflexivity|];
       split; [cbn; lia || exact Logic.I|]; intros default; reflexivity). }
  exists timeout. split; [exact E|].
  assert (Hp : fst (k, timeout) = CLinux -> over_at (allowed (sg_default mc) (k, timeout)) ms <= patience mc).
  { cbn [fst]. intros ->. rewrite Hal. cbn [over_at]. assert (limit_ms m p <= 30000); [|lia].
    destruct m, p; try discriminate H; cbn; lia. }
  pose proof (asked tgt mc (k, timeout) c t t' a ms Hh Ht Ra H16 Hm Hp) as X. cbv zeta in X. rewrite Hal in X. cbn [late fst] in X.
  split; intros Hlim.
  - replace (limit_ms m p <? ms) with false in X by (symmetry; apply Z.ltb_ge; exact Hlim). exact X.
  - replace (limit_ms m p <? ms) with true in X by (symmetry; apply Z.ltb_lt; exact Hlim). exact X.
Qed.
