(** Lemmas on transfers of any size. *)
From Coq Require Import String ZArith List Bool Lia.
From Verif Require Import Base BaseFacts Gen SpecGen GenFacts Executer SpecCall ExecFacts ExecGenFacts ExecStepFacts
  OsCommon OsLinux OsSolaris OsAix OsWin32 SpecSg SpecDrivers SpecSession OsFacts LinuxFacts SolarisFacts AixFacts WinFacts SessionFacts
  Instruct Command CdbBlock SpecDevice SpecCdb CdbAllFacts SpecExecute ExecuteFacts DiskFacts SpecIoctl SpecHuge.
Import ListNotations.
Local Open Scope Z_scope.

Lemma announced_range : forall n, 0 <= announced n < 2 ^ 32.
Proof. intros. apply Z.mod_pos_bound. lia. Qed.
Lemma announced_le : forall n, 0 <= n -> announced n <= n.
Proof. intros. apply Z.mod_le; lia. Qed.
Lemma announced_small : forall n, 0 <= n < 2 ^ 32 -> announced n = n.
Proof. intros. apply Z.mod_small. exact H. Qed.

Lemma overwrite_front : forall m n new, (m <= n)%nat -> overwrite m new (zeros n) = pad n (firstn m new).
Proof.
  intros m n new H. unfold overwrite, pad. rewrite zeros_length, skipn_zeros.
  assert (L : (length (firstn m new) <= m)%nat) by (rewrite firstn_length; lia).
  rewrite firstn_all2 by (rewrite app_length, zeros_length; lia).
  rewrite (firstn_all2 (n := n)) by lia. reflexivity.
Qed.

(** ** Linux *)
Section Linux.
Context {T A : Type}.
Context (sense_of : bytes -> result unit) (tgt : target T) (timeout : Z).
Notation ex := (executer sgio (linux_world (sg_state T))).

Lemma created_front : forall idx c h r h', sgio_create idx c timeout h = (h', r) ->
  described_data (hdr r) h' = front (zlen (data_out c)) (data_out c).
Proof.
  intros idx c h r h' H. unfold sgio_create, alloc in H. unfold described_data, front.
  destruct c as [cdb n|cdb data]; [destruct (0 <? n)|]; inversion H; subst; cbn [hdr dxfer_direction dxferp dxfer_len data_out];
    try reflexivity.
  change (c_int SG_DXFER_TO_DEV =? -2) with true. cbv iota. unfold peek.
  rewrite nth_error_app2, Nat.sub_diag by lia. reflexivity.
Qed.

Lemma created_front_read : forall idx c h r h' a, sgio_create idx c timeout h = (h', r) ->
  (if (dxfer_direction (hdr r) =? SG_DXFER_FROM_DEV) && negb (dxfer_len (hdr r) =? 0)
   then match data_buffer r with Some p => nth_error (completed_mem (hdr r) a h') p | None => None end
   else None) = front_wanted c (a_data a).
Proof.
  intros idx c h r h' a H. pose proof (created_sense timeout _ _ _ _ _ H) as [Hp [Hm _]].
  unfold completed_mem. rewrite Hp, Hm. clear Hp Hm.
  unfold sgio_create, alloc in H.
  destruct c as [cdb n|cdb data]; [destruct (0 <? n) eqn:En|]; inversion H; subst;
    cbn [hdr dxferp dxfer_direction data_buffer dxfer_len front_wanted]; rewrite ?En; try reflexivity.
  change (c_int SG_DXFER_FROM_DEV =? SG_DXFER_FROM_DEV) with true.
  change (c_int SG_DXFER_FROM_DEV =? -3) with true. cbv iota.
  apply Z.ltb_lt in En. change (c_uint n) with (announced n).
  pose proof (announced_range n) as R. pose proof (announced_le n ltac:(lia)) as L.
  destruct (Z.eqb_spec (announced n) 0) as [E0|E0]; cbn [negb andb].
  - rewrite E0. reflexivity.
  - destruct (Z.ltb_spec 0 (announced n)); [|lia].
    rewrite poke_neq by (intro E; inversion E as [E']; rewrite !app_length in E'; simpl in E'; lia).
    erewrite poke_eq; [|rewrite nth_error_app2, Nat.sub_diag by lia; reflexivity].
    rewrite overwrite_front by lia. reflexivity.
Qed.

Theorem linux_any_call : forall (s : ex) me c t h buf t' a,
  zlen (pending s) < max_queue_size s -> max_queue_size s <= 2 ^ 31 -> 0 <= packet_index s < max_queue_size s ->
  dict_get (packet_index s) (pending s) = None -> ~ In me (map fst (cb_log s)) ->
  world s = LinuxWorld h (t, []) buf -> zlen (command_of c) < 256 ->
  cut_short tgt t (command_of c) (data_out c) = (t', a) ->
  (is_check_condition (a_status a) (a_driver a) = true -> sense_of (pad 255 (a_sense a)) = Ok tt) ->
  exists h', call_evaluates (call (linux_os (A := A) sense_of (honest tgt) timeout) me c) s
    (Executer (pending s) ((packet_index s + 1) mod max_queue_size s) (max_queue_size s)
       (cb_log s ++ [(me, linux_any c a)]) (LinuxWorld h' (t', []) buf))
    (outcome_of (linux_any c a)).
Proof.
  intros s me c t h buf t' a Hroom Hmax Hidx Hfree Hlog Hw Hfit Htgt Hsense.
  destruct (sgio_create (packet_index s) c timeout h) as [h1 r] eqn:Hcr.
  exists (completed_mem (hdr r) a h1).
  pose proof (created_sense timeout _ _ _ _ _ Hcr) as [_ [_ [_ Hpid]]].
  rewrite c_int_small in Hpid by lia.
  apply (call_answered (linux_os (A := A) sense_of (honest tgt) timeout) c me s r (LinuxWorld h1 (t, []) buf) (LinuxWorld h1 (t', [(hdr r, a)]) buf)
    (VData (DInt 88)) true (LinuxWorld (completed_mem (hdr r) a h1) (t', []) buf)
    (linux_any c a) true); auto.
  - cbn [os_prepare_to_send linux_os]. unfold linux_prepare, at_prepare. cbn [world with_index].
    rewrite Hw. cbn [l_heap l_dev l_buffer]. rewrite Hcr. reflexivity.
  - eapply ev_value.
    + cbn [os_send linux_os linux_send resume world with_world l_heap l_dev l_buffer sg_write honest honest_write fst snd].
      unfold honest_write. cbn [fst snd].
      rewrite (created_cdb timeout _ _ _ _ _ Hcr), (created_front _ _ _ _ _ Hcr) by assumption.
      unfold cut_short in Htgt. rewrite Htgt. reflexivity.
    + apply vdata_not_exn.
    + apply ev_finish; [reflexivity|apply vdata_not_exn].
  - assert (Hh : linux_handle sense_of (Some (completed_hdr (hdr r) a))
        (with_world (at_send s r (Some me)) (LinuxWorld (completed_mem (hdr r) a h1) (t', []) buf))
        = Ok (linux_any c a, packet_index s)).
    { destruct (created_bounds timeout _ _ _ _ _ Hcr) as [Hb1 Hb2].
      rewrite (linux_handle_spec sense_of _ _ r (Some me) (pad 255 (a_sense a))).
      - cbn [status host_status driver_status completed_hdr pack_id]. rewrite Hpid.
        change (l_heap (world (with_world (at_send s r (Some me)) (LinuxWorld (completed_mem (hdr r) a h1) (t', []) buf))))
          with (completed_mem (hdr r) a h1).
        rewrite (created_front_read _ _ _ _ _ a Hcr). reflexivity.
      - cbn [pack_id completed_hdr]. rewrite Hpid. cbn. apply dict_get_set_eq.
      - cbn [status driver_status completed_hdr sbp]. intros Hcc. split; auto.
        apply (created_sense_read timeout _ _ _ _ _ a Hcr).
      - intros p Hp. apply Hb1; auto.
      - auto. }
    exact (linux_receive_evaluates sense_of (honest tgt) timeout
      (with_world (at_send s r (Some me)) (LinuxWorld h1 (t', [(hdr r, a)]) buf))
      _ _ _ _ _ _ eq_refl Hh).
Qed.

Lemma linux_any_step : steps (linux_os (A := A) sense_of (honest tgt) timeout) (cut_short tgt) linux_any linux_idle
    (fun c => zlen (command_of c) < 256)
    (fun a => is_check_condition (a_status a) (a_driver a) = true -> sense_of (pad 255 (a_sense a)) = Ok tt).
Proof.
  intros s t me c t' a (H1 & H2 & H3 & h & buf & H4) Hc Ht Ha Hl.
  destruct (linux_any_call s me c t h buf t' a) as (h' & E); auto; try lia.
  - rewrite H1. cbn. lia.
  - rewrite H1. reflexivity.
  - eexists. split; [exact E|]. split; [|reflexivity].
    split; [exact H1|]. split; [exact H2|]. split; [cbn; apply Z.mod_pos_bound; lia|]. cbn. eauto.
Qed.

Theorem ioctl_any_call : forall (s : ex) me c t q h buf t' a,
  zlen (pending s) < max_queue_size s -> max_queue_size s <= 2 ^ 31 -> 0 <= packet_index s < max_queue_size s ->
  dict_get (packet_index s) (pending s) = None -> ~ In me (map fst (cb_log s)) ->
  world s = LinuxWorld h (t, q) buf -> zlen (command_of c) < 256 ->
  cut_short tgt t (command_of c) (data_out c) = (t', a) ->
  exists h' buf', call_evaluates (call (linux_ioctl_os (A := A) sense_of (honest tgt) timeout) me c) s
    (Executer (pending s) ((packet_index s + 1) mod max_queue_size s) (max_queue_size s)
       (cb_log s ++ [(me, ioctl_any c a)]) (LinuxWorld h' (t', q) buf'))
    (outcome_of (ioctl_any c a)).
Proof.
  intros s me c t q h buf t' a Hroom Hmax Hidx Hfree Hlog Hw Hfit Htgt.
  destruct (sgio_create (packet_index s) c timeout h) as [h1 r] eqn:Hcr.
  exists (completed_mem (hdr r) a h1), (Some (hdr r)).
  pose proof (created_sense timeout _ _ _ _ _ Hcr) as [_ [_ [_ Hpid]]].
  rewrite c_int_small in Hpid by lia.
  pose proof (created_fresh timeout _ _ _ _ _ Hcr) as [Hf1 [Hf2 Hf3]].
  apply (call_answered (linux_ioctl_os (A := A) sense_of (honest tgt) timeout) c me s r (LinuxWorld h1 (t, q) buf)
    (LinuxWorld (completed_mem (hdr r) a h1) (t', q) (Some (hdr r)))
    (VData (DInt 88)) true (LinuxWorld (completed_mem (hdr r) a h1) (t', q) (Some (hdr r)))
    (ioctl_any c a) true); auto.
  - cbn [os_prepare_to_send linux_ioctl_os]. unfold linux_prepare, at_prepare. cbn [world with_index].
    rewrite Hw. cbn [l_heap l_dev l_buffer]. rewrite Hcr. reflexivity.
  - eapply ev_value.
    + cbn [os_send linux_ioctl_os linux_ioctl_send resume world with_world l_heap l_dev l_buffer sg_ioctl honest honest_ioctl fst snd].
      unfold honest_ioctl. cbn [fst snd].
      rewrite (created_cdb timeout _ _ _ _ _ Hcr), (created_front _ _ _ _ _ Hcr) by assumption.
      unfold cut_short in Htgt. rewrite Htgt. reflexivity.
    + apply vdata_not_exn.
    + apply ev_finish; [reflexivity|apply vdata_not_exn].
  - assert (Hh : linux_handle sense_of (Some (hdr r))
        (with_world (at_send s r (Some me)) (LinuxWorld (completed_mem (hdr r) a h1) (t', q) (Some (hdr r))))
        = Ok (ioctl_any c a, packet_index s)).
    { destruct (created_bounds timeout _ _ _ _ _ Hcr) as [Hb1 Hb2].
      rewrite (linux_handle_spec sense_of _ _ r (Some me) []).
      - rewrite Hf1, Hf2, Hf3, Hpid. cbn [is_check_condition is_clean].
        change (l_heap (world (with_world (at_send s r (Some me)) (LinuxWorld (completed_mem (hdr r) a h1) (t', q) (Some (hdr r))))))
          with (completed_mem (hdr r) a h1).
        rewrite (created_front_read _ _ _ _ _ a Hcr). reflexivity.
      - rewrite Hpid. cbn. apply dict_get_set_eq.
      - rewrite Hf1, Hf3. discriminate.
      - intros p Hp. apply Hb1; auto.
      - auto. }
    eapply ev_value; [reflexivity|apply vdata_not_exn|].
    eapply ev_value; [|apply vdata_not_exn|].
    + cbn [linux_receive_handle resume]. rewrite Hh. reflexivity.
    + apply ev_finish; [reflexivity|apply vdata_not_exn].
Qed.

Lemma ioctl_any_step : steps (linux_ioctl_os (A := A) sense_of (honest tgt) timeout) (cut_short tgt) ioctl_any linux_idle
    (fun c => zlen (command_of c) < 256) (fun _ => True).
Proof.
  intros s t me c t' a (H1 & H2 & H3 & h & buf & H4) Hc Ht _ Hl.
  destruct (ioctl_any_call s me c t [] h buf t' a) as (h' & buf' & E); auto; try lia.
  - rewrite H1. cbn. lia.
  - rewrite H1. reflexivity.
  - eexists. split; [exact E|]. split; [|reflexivity].
    split; [exact H1|]. split; [exact H2|]. split; [cbn; apply Z.mod_pos_bound; lia|]. cbn. eauto.
Qed.
End Linux.

(** ** Windows *)
Section Windows.
Context {T A : Type}.
Context (sense_of : bytes -> result unit) (tgt : target T).
Notation ex := (executer spt (win_world T)).
Notation os := (win_os (A := A) sense_of (honest_win tgt)).

Lemma spt_any_block : forall c h, zlen (command_of c) <= 16 ->
  exists h' q b, spt_create c h = Ok (h', q, b) /\
  firstn (Z.to_nat (CdbLength q)) (Cdb q) = command_of c /\
  SenseInfoLength q = 255 /\ spt_sense q = zeros 255 /\ DataBuffer q = b /\
  match c with
  | ReadCmd _ n =>
    if 0 <? n
    then DataIn q = 1 /\ DataTransferLength q = announced n /\
         exists p, b = Some p /\ nth_error h' p = Some (zeros (Z.to_nat n))
    else DataIn q = 2 /\ DataTransferLength q = 0 /\ b = None
  | WriteCmd _ data =>
    if 0 <? zlen data
    then DataIn q = 0 /\ DataTransferLength q = announced (zlen data) /\
         exists p, b = Some p /\ nth_error h' p = Some data
    else DataIn q = 2 /\ DataTransferLength q = 0 /\ b = None
  end.
Proof.
  intros c h Hf1. unfold spt_create.
  destruct (Nat.ltb_spec 16 (length (command_of c))); [unfold zlen in Hf1; lia|].
  assert (Hl : c_ubyte (zlen (command_of c)) = zlen (command_of c)) by (apply c_ubyte_small; unfold zlen in *; lia).
  assert (Hc : firstn 16 (command_of c ++ zeros 16) = command_of c ++ zeros (16 - length (command_of c))).
  { rewrite firstn_app, firstn_all2 by lia. f_equal. apply firstn_zeros. lia. }
  assert (Hg : firstn (Z.to_nat (zlen (command_of c))) (command_of c ++ zeros (16 - length (command_of c))) = command_of c).
  { unfold zlen. rewrite Nat2Z.id, firstn_app, Nat.sub_diag, firstn_all, firstn_O, app_nil_r. reflexivity. }
  rewrite Hl, Hc. unfold alloc.
  destruct c as [cdb n|cdb data]; cbn [command_of] in *.
  - destruct (0 <? n) eqn:En; eexists; eexists; eexists; (split; [reflexivity|]); cbn [CdbLength Cdb]; (split; [exact Hg|]);
      (split; [reflexivity|]); (split; [reflexivity|]); (split; [reflexivity|]); (split; [reflexivity|]); (split; [reflexivity|]).
    + eexists. split; [reflexivity|apply nth_new].
    + reflexivity.
  - destruct (0 <? zlen data) eqn:En; eexists; eexists; eexists; (split; [reflexivity|]); cbn [CdbLength Cdb]; (split; [exact Hg|]);
      (split; [reflexivity|]); (split; [reflexivity|]); (split; [reflexivity|]); (split; [reflexivity|]); (split; [reflexivity|]).
    + eexists. split; [reflexivity|apply nth_new].
    + reflexivity.
Qed.

Lemma spt_any_described : forall c h h' q b, spt_create c h = Ok (h', q, b) -> zlen (command_of c) <= 16 ->
  firstn (Z.to_nat (CdbLength q)) (Cdb q) = command_of c /\
  spt_data_out q h' = front (zlen (data_out c)) (data_out c) /\
  (forall a, spt_sense (spt_done q a) = pad 255 (a_sense a)) /\
  (forall a p, b = Some p -> (p < length (spt_mem q a h'))%nat) /\
  (DataIn q = 1 -> b <> None) /\
  (forall a, (if (DataIn q =? 1) && negb (DataTransferLength (spt_done q a) =? 0)
     then match b with
          | Some p => option_map (firstn (Z.to_nat (DataTransferLength (spt_done q a)))) (nth_error (spt_mem q a h') p)
          | None => None end
     else None) = win_front c (a_data a)).
Proof.
  intros c h h' q b H Hf.
  destruct (spt_any_block c h Hf) as (h'' & q'' & b'' & E & E1 & E3 & E4 & E6 & E7).
  rewrite H in E. injection E as X1 X2 X3. rewrite <- X3 in E6, E7. rewrite <- X2 in E1, E3, E4, E6, E7. rewrite <- X1 in E7. clear h'' q'' b'' X1 X2 X3.
  assert (Hlen : forall a m, length (spt_mem q a m) = length m).
  { intros. unfold spt_mem. destruct (spt_reads q); [apply poke_length|reflexivity]. }
  split; [exact E1|].
  split. { unfold spt_data_out. rewrite E6. destruct c as [cdb n|cdb data]; cbn [data_out].
    - destruct (0 <? n); destruct E7 as [E7 _]; rewrite E7; reflexivity.
    - destruct (0 <? zlen data) eqn:En.
      + destruct E7 as (E7 & E8 & p & E9 & E10). rewrite E7, E8, E9. cbn [Z.eqb]. cbv iota. unfold peek. rewrite E10. reflexivity.
      + destruct E7 as (E7 & _). rewrite E7. cbn. apply Z.ltb_ge in En. unfold zlen in En.
        destruct data; [reflexivity|]. cbn in En. lia. }
  split. { intros a. cbn [spt_sense spt_done]. rewrite E3, E4. apply overwrite_zeros. }
  split. { intros a p Hp. rewrite Hlen. destruct c as [cdb n|cdb data].
    - destruct (0 <? n); destruct E7 as (_ & _ & E7).
      + destruct E7 as (p' & X1 & X2). rewrite Hp in X1. inversion X1; subst. apply nth_error_Some. congruence.
      + rewrite E7 in Hp. discriminate.
    - destruct (0 <? zlen data); destruct E7 as (_ & _ & E7).
      + destruct E7 as (p' & X1 & X2). rewrite Hp in X1. inversion X1; subst. apply nth_error_Some. congruence.
      + rewrite E7 in Hp. discriminate. }
  split. { intros Hd Hb. destruct c as [cdb n|cdb data].
    - destruct (0 <? n); destruct E7 as (X1 & _ & X2); [|rewrite Hd in X1; discriminate].
      destruct X2 as (p & X2 & _). congruence.
    - destruct (0 <? zlen data); destruct E7 as (X1 & _); rewrite Hd in X1; discriminate. }
  intros a. cbn [DataTransferLength spt_done]. unfold spt_reads.
  destruct c as [cdb n|cdb data]; cbn [win_front].
  - destruct (0 <? n) eqn:En.
    + destruct E7 as (E7 & E8 & p & E9 & E10). rewrite E7. rewrite Z.eqb_refl. cbn [andb]. cbv iota.
      rewrite E8. apply Z.ltb_lt in En.
      pose proof (announced_range n) as R. pose proof (announced_le n ltac:(lia)) as L.
      assert (Hz : zlen (front n (a_data a)) = Z.min (announced n) (zlen (a_data a))).
      { unfold front, zlen. rewrite firstn_length. lia. }
      rewrite Hz.
      destruct (Z.ltb_spec 0 (Z.min (announced n) (zlen (a_data a)))) as [Hd|Hd].
      * destruct (Z.eqb_spec (Z.min (announced n) (zlen (a_data a))) 0); [lia|]. cbn [negb]. rewrite E9.
        unfold spt_mem, spt_reads. rewrite E7, E6, E9, E8, Z.eqb_refl. cbv iota.
        rewrite (poke_eq _ _ _ _ _ E10), overwrite_front by lia. cbn [option_map]. f_equal.
        change (firstn (Z.to_nat (announced n)) (a_data a)) with (front n (a_data a)).
        unfold pad. rewrite (firstn_all2 (n := Z.to_nat n)) by (unfold zlen in Hz; unfold zlen in *; lia).
        rewrite <- Hz. unfold zlen. rewrite Nat2Z.id, firstn_app, Nat.sub_diag, firstn_O, app_nil_r. apply firstn_all.
      * assert (0 <= zlen (a_data a)) by (unfold zlen; lia).
        destruct (Z.eqb_spec (Z.min (announced n) (zlen (a_data a))) 0); [reflexivity|]. lia.
    + destruct E7 as (E7 & _). rewrite E7. reflexivity.
  - destruct (0 <? zlen data); destruct E7 as (E7 & _); rewrite E7; reflexivity.
Qed.

Theorem win_any_call : forall (s : ex) me c t h objs inc t' a,
  zlen (pending s) < max_queue_size s -> dict_get (packet_index s) (pending s) = None ->
  ~ In me (map fst (cb_log s)) ->
  world s = WinWorld h objs t inc -> zlen (command_of c) <= 16 -> cut_short tgt t (command_of c) (data_out c) = (t', a) ->
  (a_status a = 2 -> sense_of (pad 255 (a_sense a)) = Ok tt) -> a_host a = 0 ->
  exists h' objs', call_evaluates (call os me c) s
    (Executer (pending s) ((packet_index s + 1) mod max_queue_size s) (max_queue_size s)
       (cb_log s ++ [(me, win_any c a)]) (WinWorld h' objs' t' inc))
    (outcome_of (win_any c a)).
Proof.
  intros s me c t h objs inc t' a Hroom Hfree Hl Hw Hf Ht Hse Hh0.
  destruct (spt_any_block c h Hf) as (h1 & q & b & Hcr & _).
  destruct (spt_any_described _ _ _ _ _ Hcr Hf) as (E1 & E2 & E3 & E4 & E5 & E6).
  assert (Hcr2 : spt_create c (w_heap (world s)) = Ok (h1, q, b)) by (rewrite Hw; exact Hcr).
  pose proof (win_prepared s c _ _ _ _ eq_refl Hcr2) as Hpr.
  set (r := Spt (length (w_objs (world s))) (packet_index s) b) in *.
  set (w0 := WinWorld h1 (w_objs (world s) ++ [q]) (w_dev (world s)) (incoming_packets (world s))) in *.
  pose proof (win_send_spec (A := A) sense_of (honest_win tgt) (with_world (at_send s r (Some me)) w0) r q
    (spt_mem q a h1) t' (spt_done q a) (Some (zlen (a_data a))) (nth_new _ _ _)) as X.
  cbv beta iota in X.
  match type of X with ?P -> _ => assert (HP : P) end.
  { cbn [world with_world w_heap w_dev w0]. cbn [dev_control honest_win]. unfold honest_control, spt_run.
    rewrite E1, E2, Hw. cbn [w_dev]. unfold cut_short in Ht. rewrite Ht, Hh0. reflexivity. }
  specialize (X HP). clear HP.
  match type of X with evaluates _ _ _ _ (with_world _ ?y) _ => set (w := y) in * end.
  set (w' := popped w inc).
  exists (spt_mem q a h1), (w_objs w').
  pose proof (call_answered os c me s r w0 w (VData (DInt (zlen (a_data a)))) true w' (win_any c a) true) as Y.
  assert (Hdev : w' = WinWorld (spt_mem q a h1) (w_objs w') t' inc) by reflexivity.
  rewrite <- Hdev. apply Y; auto.
  apply (win_receive_evaluates sense_of (with_world (at_send s r (Some me)) w) inc r).
  - cbn. rewrite Hw. reflexivity.
  - assert (V : win_handle sense_of r w' = Ok (win_any c a, packet_id r)).
    { rewrite (win_handle_spec sense_of w' r (spt_done q a)).
      - rewrite E3. cbn [ScsiStatus DataIn spt_done]. unfold win_any. rewrite <- (E6 a).
        cbn [DataTransferLength spt_done]. reflexivity.
      - split; [cbn; apply put_new|]. split.
        + intros p Hp. change (w_heap w') with (spt_mem q a h1). apply E4. exact Hp.
        + cbn [DataIn spt_done]. exact E5.
      - cbn [ScsiStatus spt_done]. rewrite E3. exact Hse. }
    exact V.
Qed.

Lemma win_any_step : steps os (cut_short tgt) win_any win_idle (fun c => zlen (command_of c) <= 16)
    (fun a => a_host a = 0 /\ (a_status a = 2 -> sense_of (pad 255 (a_sense a)) = Ok tt)).
Proof.
  intros s t me c t' a (H1 & H2 & H4) Hc Ht (Ha1 & Ha2) Hl.
  destruct (win_any_call s me c t (w_heap (world s)) (w_objs (world s)) (incoming_packets (world s)) t' a) as (h' & objs' & E); auto; try lia.
  - rewrite H1. cbn. lia.
  - rewrite H1. reflexivity.
  - rewrite <- H4. destruct (world s); reflexivity.
  - eexists. split; [exact E|]. split; [|reflexivity].
    split; [exact H1|]. split; [exact H2|reflexivity].
Qed.
End Windows.

(** ** READ and WRITE of any size *)
Section Disk.
Context {T : Type} (tgt : target T) (content : T -> Z -> bytes) (bs capacity : Z).
Context (Hbs : 1 <= bs) (Dev : block_device tgt content bs capacity).

Section System.
Context {R W H : Type} (os : os_layer R W (wire H pyval) scsi_command) (tgt' : target T) (expected : scsi_command -> answer -> resp).
Context (Idle : executer R W -> T -> Prop) (okc : scsi_command -> Prop) (oka : answer -> Prop).
Context (step : steps os tgt' expected Idle okc oka).

Lemma any_read : forall s t me c lba n d, Idle s t -> ~ In me (map fst (cb_log s)) ->
  read_of c lba n bs -> proper c -> arguments_fit c -> lba + n <= capacity ->
  (forall cdb, tgt' t cdb [] = tgt t cdb []) -> oka (good (blocks (content t) lba (Z.to_nat n))) ->
  (forall cdb, zlen cdb <= 16 -> okc (ReadCmd cdb (n * bs)) /\
    expected (ReadCmd cdb (n * bs)) (good (blocks (content t) lba (Z.to_nat n))) = RespData d) ->
  exists s' t', user_runs os me s (constructed c) s' (shown (Ok (match d with None => PNone | Some b => PBytes b end))) /\
    Idle s' t' /\ forall k, 0 <= k < capacity -> content t' k = content t k.
Proof.
  intros s t me c lba n d Hi Hl Rd P F In E1 E2 E3.
  destruct (read_issue _ _ _ _ Hbs Rd P F) as (o & cdb & f & C & Q & I & Pf & L & N).
  destruct (bd_read _ _ _ _ Dev t cdb [] lba n f I Pf L N In) as (t1 & G & K).
  destruct (E3 cdb (interpret_short _ _ I)) as [E4 E5].
  rewrite <- E1 in G.
  destruct (step s t me _ t1 _ Hi E4 G E2 Hl) as (s1 & S1 & S2 & S3).
  exists s1, t1. split; [|auto]. rewrite C. constructor.
  replace (Ok match d with Some b => PBytes b | None => PNone end) with
    (result_of expected o (ReadCmd cdb (n * bs)) (good (blocks (content t) lba (Z.to_nat n)))).
  - eapply execute_result; eauto.
  - unfold result_of. rewrite E5, (read_finish _ _ _ _ _ Rd C). destruct d; reflexivity.
Qed.

Lemma any_write : forall s t me c lba data, Idle s t -> ~ In me (map fst (cb_log s)) ->
  write_of c lba data bs -> proper c -> arguments_fit c ->
  (forall cdb, zlen cdb <= 16 -> okc (WriteCmd cdb data) /\ expected (WriteCmd cdb data) (good []) = RespData None) -> oka (good []) ->
  exists cdb f, interpret cdb = Some (OpWrite lba (zlen data / bs) f) /\ protect f = 0 /\
    forall t', tgt' t cdb data = (t', good []) ->
      exists s', user_runs os me s (constructed c) s' (shown (Ok PNone)) /\ Idle s' t'.
Proof.
  intros s t me c lba data Hi Hl Rd P F E E2.
  destruct (write_issue _ _ _ _ Hbs Rd P F) as (o & cdb & f & C & Q & I & Pf & L & N).
  destruct (E cdb (interpret_short _ _ I)) as [E4 E5].
  exists cdb, f. split; [exact I|]. split; [exact Pf|]. intros t' G.
  destruct (step s t me (WriteCmd cdb data) t' _ Hi E4 G E2 Hl) as (s1 & S1 & S2 & S3).
  exists s1. split; [|auto]. rewrite C. constructor.
  replace (Ok PNone) with (result_of expected o (WriteCmd cdb data) (good [])).
  - eapply execute_result; eauto.
  - unfold result_of. rewrite E5, (write_finish _ _ _ _ _ Rd C). reflexivity.
Qed.
End System.

Lemma blocks_size : forall t c lba n, read_of c lba n bs -> proper c -> arguments_fit c -> lba + n <= capacity ->
  zlen (blocks (content t) lba (Z.to_nat n)) = n * bs /\ 0 <= n.
Proof.
  intros t c lba n Rd P F In. destruct (read_issue _ _ _ _ Hbs Rd P F) as (o & cdb & f & C & Q & I & Pf & L & N).
  rewrite (blocks_length bs capacity) by (try lia; apply (bd_block _ _ _ _ Dev)). split; lia.
Qed.

Lemma front_padded : forall n data, zlen data = n -> pad (Z.to_nat n) (front n data) = front n data ++ zeros (Z.to_nat (n - announced n)).
Proof.
  intros n data E. assert (0 <= n) by (unfold zlen in E; lia). pose proof (announced_range n). pose proof (announced_le n H).
  assert (L : length (front n data) = Z.to_nat (announced n)). { unfold front, zlen in *. rewrite firstn_length. lia. }
  unfold pad. rewrite (firstn_all2 (n := Z.to_nat n)) by lia. rewrite L. f_equal. f_equal. lia.
Qed.

Lemma front_read : forall n cdb data, zlen data = n ->
  front_wanted (ReadCmd cdb n) data = if announced n =? 0 then None else Some (front n data ++ zeros (Z.to_nat (n - announced n))).
Proof.
  intros n cdb data E. assert (0 <= n) by (unfold zlen in E; lia). pose proof (announced_range n). pose proof (announced_le n H).
  unfold front_wanted. rewrite (front_padded n data E).
  destruct (Z.eqb_spec (announced n) 0) as [Z0|Z0].
  - rewrite Z0, andb_false_r. reflexivity.
  - destruct (Z.ltb_spec 0 n); [|lia]. destruct (Z.ltb_spec 0 (announced n)); [|lia]. reflexivity.
Qed.
Lemma front_win : forall n cdb data, zlen data = n ->
  win_front (ReadCmd cdb n) data = if announced n =? 0 then None else Some (front n data).
Proof.
  intros n cdb data E. assert (0 <= n) by (unfold zlen in E; lia). pose proof (announced_range n). pose proof (announced_le n H).
  assert (L : zlen (front n data) = announced n). { unfold front, zlen in *. rewrite firstn_length. lia. }
  unfold win_front. rewrite L.
  destruct (Z.eqb_spec (announced n) 0) as [Z0|Z0].
  - rewrite Z0, andb_false_r. reflexivity.
  - destruct (Z.ltb_spec 0 n); [|lia]. destruct (Z.ltb_spec 0 (announced n)); [|lia]. reflexivity.
Qed.

Lemma as_pyval : forall (b : bool) x, match (if b then None else Some x) with None => PNone | Some y => PBytes y end = if b then PNone else PBytes x.
Proof. intros [|] x; reflexivity. Qed.

Lemma linux_read_any : forall sense_of timeout s t me c lba n, linux_idle s t -> ~ In me (map fst (cb_log s)) ->
  read_of c lba n bs -> proper c -> arguments_fit c -> lba + n <= capacity ->
  exists s' t', user_runs (linux_os sense_of (honest tgt) timeout) me s (constructed c) s'
      (shown (Ok (if announced (n * bs) =? 0 then PNone
        else PBytes (front (n * bs) (blocks (content t) lba (Z.to_nat n)) ++ zeros (Z.to_nat (n * bs - announced (n * bs))))))) /\
    linux_idle s' t' /\ forall k, 0 <= k < capacity -> content t' k = content t k.
Proof.
  intros sense_of timeout s t me c lba n Hi Hl Rd P F In. rewrite <- as_pyval.
  destruct (blocks_size t c lba n Rd P F In) as [B N].
  eapply (any_read (H := option sg_hdr) _ (cut_short tgt)); eauto.
  - apply linux_any_step.
  - intros X. discriminate X.
  - intros cdb Hc. split; [cbn [command_of]; lia|].
    unfold linux_any. change (is_check_condition _ _) with false. change (is_clean _ _ _) with true. cbv iota.
    exact (f_equal RespData (front_read (n * bs) cdb (blocks (content t) lba (Z.to_nat n)) B)).
Qed.
Lemma ioctl_read_any : forall sense_of timeout s t me c lba n, linux_idle s t -> ~ In me (map fst (cb_log s)) ->
  read_of c lba n bs -> proper c -> arguments_fit c -> lba + n <= capacity ->
  exists s' t', user_runs (linux_ioctl_os sense_of (honest tgt) timeout) me s (constructed c) s'
      (shown (Ok (if announced (n * bs) =? 0 then PNone
        else PBytes (front (n * bs) (blocks (content t) lba (Z.to_nat n)) ++ zeros (Z.to_nat (n * bs - announced (n * bs))))))) /\
    linux_idle s' t' /\ forall k, 0 <= k < capacity -> content t' k = content t k.
Proof.
  intros sense_of timeout s t me c lba n Hi Hl Rd P F In. rewrite <- as_pyval.
  destruct (blocks_size t c lba n Rd P F In) as [B N].
  eapply (any_read (H := option sg_hdr) _ (cut_short tgt)); eauto.
  - apply ioctl_any_step.
  - exact Logic.I.
  - intros cdb Hc. split; [cbn [command_of]; lia|].
    unfold ioctl_any. exact (f_equal RespData (front_read (n * bs) cdb (blocks (content t) lba (Z.to_nat n)) B)).
Qed.
Lemma win_read_any : forall sense_of s t me c lba n, win_idle s t -> ~ In me (map fst (cb_log s)) ->
  read_of c lba n bs -> proper c -> arguments_fit c -> lba + n <= capacity ->
  exists s' t', user_runs (win_os sense_of (honest_win tgt)) me s (constructed c) s'
      (shown (Ok (if announced (n * bs) =? 0 then PNone else PBytes (front (n * bs) (blocks (content t) lba (Z.to_nat n)))))) /\
    win_idle s' t' /\ forall k, 0 <= k < capacity -> content t' k = content t k.
Proof.
  intros sense_of s t me c lba n Hi Hl Rd P F In. rewrite <- as_pyval.
  destruct (blocks_size t c lba n Rd P F In) as [B N].
  eapply (any_read _ (cut_short tgt)); eauto.
  - apply win_any_step.
  - split; [reflexivity|]. intros X. discriminate X.
  - intros cdb Hc. split; [exact Hc|].
    unfold win_any. change (a_status _ =? 0) with true. cbv iota.
    exact (f_equal RespData (front_win (n * bs) cdb (blocks (content t) lba (Z.to_nat n)) B)).
Qed.

Lemma solaris_read_any : forall sense_of fails timeout s t me c lba n, solaris_idle s t -> ~ In me (map fst (cb_log s)) ->
  (forall data, fails (good data) = false) ->
  read_of c lba n bs -> proper c -> arguments_fit c -> lba + n <= capacity -> n * bs < 2 ^ 64 ->
  exists s' t', user_runs (solaris_os sense_of (honest_uscsi tgt fails) timeout) me s (constructed c) s'
      (shown (Ok (if n * bs =? 0 then PNone else PBytes (blocks (content t) lba (Z.to_nat n))))) /\
    solaris_idle s' t' /\ forall k, 0 <= k < capacity -> content t' k = content t k.
Proof.
  intros sense_of fails timeout s t me c lba n Hi Hl Hf Rd P F In Sz. rewrite <- as_pyval.
  destruct (blocks_size t c lba n Rd P F In) as [B N].
  eapply (any_read _ tgt); eauto.
  - apply solaris_step.
  - split; [unfold byte_status; cbn; lia|]. split; [apply Hf|]. intros X. discriminate X.
  - intros cdb Hc. split; [split; [cbn [command_of]; lia|exact Sz]|].
    unfold solaris_expected. change (Z.testbit _ _) with false. change (a_status _ =? 0) with true. cbv iota.
    rewrite <- B. exact (f_equal RespData (wanted_exact cdb (blocks (content t) lba (Z.to_nat n)))).
Qed.
Lemma aix_read_any : forall sense_of timeout use_ctypes s t me c lba n, aix_idle s t -> ~ In me (map fst (cb_log s)) ->
  read_of c lba n bs -> proper c -> arguments_fit c -> lba + n <= capacity -> n * bs < 2 ^ 64 ->
  exists s' t', user_runs (aix_os sense_of (honest_sc tgt) timeout use_ctypes) me s (constructed c) s'
      (shown (Ok (if n * bs =? 0 then PNone else PBytes (blocks (content t) lba (Z.to_nat n))))) /\
    aix_idle s' t' /\ forall k, 0 <= k < capacity -> content t' k = content t k.
Proof.
  intros sense_of timeout use_ctypes s t me c lba n Hi Hl Rd P F In Sz. rewrite <- as_pyval.
  destruct (blocks_size t c lba n Rd P F In) as [B N].
  eapply (any_read _ tgt); eauto.
  - apply aix_step.
  - intros X. discriminate X.
  - intros cdb Hc. split; [split; [cbn [command_of]; lia|exact Sz]|].
    unfold aix_expected. change (a_status _ =? 0) with true. change (a_host _ =? 0) with true. cbv iota.
    rewrite <- B. exact (f_equal RespData (wanted_exact cdb (blocks (content t) lba (Z.to_nat n)))).
Qed.

Lemma linux_write_any : forall sense_of timeout s t me c lba data, linux_idle s t -> ~ In me (map fst (cb_log s)) ->
  write_of c lba data bs -> proper c -> arguments_fit c ->
  exists cdb f, interpret cdb = Some (OpWrite lba (zlen data / bs) f) /\ protect f = 0 /\
    forall t', tgt t cdb (front (zlen data) data) = (t', good []) ->
      exists s', user_runs (linux_os sense_of (honest tgt) timeout) me s (constructed c) s' (shown (Ok PNone)) /\ linux_idle s' t'.
Proof.
  intros sense_of timeout s t me c lba data Hi Hl Wr P F.
  eapply (any_write (H := option sg_hdr) _ (cut_short tgt)); eauto.
  - apply linux_any_step.
  - intros cdb Hc. split; [cbn [command_of]; lia|reflexivity].
  - intros X. discriminate X.
Qed.
Lemma ioctl_write_any : forall sense_of timeout s t me c lba data, linux_idle s t -> ~ In me (map fst (cb_log s)) ->
  write_of c lba data bs -> proper c -> arguments_fit c ->
  exists cdb f, interpret cdb = Some (OpWrite lba (zlen data / bs) f) /\ protect f = 0 /\
    forall t', tgt t cdb (front (zlen data) data) = (t', good []) ->
      exists s', user_runs (linux_ioctl_os sense_of (honest tgt) timeout) me s (constructed c) s' (shown (Ok PNone)) /\ linux_idle s' t'.
Proof.
  intros sense_of timeout s t me c lba data Hi Hl Wr P F.
  eapply (any_write (H := option sg_hdr) _ (cut_short tgt)); eauto.
  - apply ioctl_any_step.
  - intros cdb Hc. split; [cbn [command_of]; lia|reflexivity].
  - exact Logic.I.
Qed.
Lemma win_write_any : forall sense_of s t me c lba data, win_idle s t -> ~ In me (map fst (cb_log s)) ->
  write_of c lba data bs -> proper c -> arguments_fit c ->
  exists cdb f, interpret cdb = Some (OpWrite lba (zlen data / bs) f) /\ protect f = 0 /\
    forall t', tgt t cdb (front (zlen data) data) = (t', good []) ->
      exists s', user_runs (win_os sense_of (honest_win tgt)) me s (constructed c) s' (shown (Ok PNone)) /\ win_idle s' t'.
Proof.
  intros sense_of s t me c lba data Hi Hl Wr P F.
  eapply (any_write _ (cut_short tgt)); eauto.
  - apply win_any_step.
  - intros cdb Hc. split; [exact Hc|reflexivity].
  - split; [reflexivity|]. intros X. discriminate X.
Qed.

Lemma whole_write : forall c lba data t, write_of c lba data bs -> proper c -> arguments_fit c -> lba + zlen data / bs <= capacity ->
  forall cdb f, interpret cdb = Some (OpWrite lba (zlen data / bs) f) -> protect f = 0 ->
  exists t', tgt t cdb data = (t', good []) /\
    forall k, 0 <= k < capacity -> content t' k = written bs lba (zlen data / bs) data (content t) k.
Proof.
  intros c lba data t Wr P F In cdb f I Pf.
  destruct (write_issue _ _ _ _ Hbs Wr P F) as (o & cdb' & f' & C & Q & I' & Pf' & L & N).
  assert (N2 : 0 <= zlen data / bs). { apply Z.div_pos; [unfold zlen|]; lia. }
  exact (bd_write _ _ _ _ Dev t cdb data lba (zlen data / bs) f I Pf L N2 In N).
Qed.
Lemma solaris_write_any : forall sense_of fails timeout s t me c lba data, solaris_idle s t -> ~ In me (map fst (cb_log s)) ->
  (forall data, fails (good data) = false) ->
  write_of c lba data bs -> proper c -> arguments_fit c -> lba + zlen data / bs <= capacity -> zlen data < 2 ^ 64 ->
  exists s' t', user_runs (solaris_os sense_of (honest_uscsi tgt fails) timeout) me s (constructed c) s' (shown (Ok PNone)) /\
    solaris_idle s' t' /\ forall k, 0 <= k < capacity -> content t' k = written bs lba (zlen data / bs) data (content t) k.
Proof.
  intros sense_of fails timeout s t me c lba data Hi Hl Hf Wr P F In Sz.
  destruct (any_write _ tgt _ _ _ _ (solaris_step (A := pyval) sense_of tgt fails timeout) s t me c lba data Hi Hl Wr P F) as (cdb & f & I & Pf & X).
  - intros cdb Hc. split; [split; [cbn [command_of]; lia|exact Sz]|reflexivity].
  - split; [unfold byte_status; cbn; lia|]. split; [apply Hf|]. intros X. discriminate X.
  - destruct (whole_write c lba data t Wr P F In cdb f I Pf) as (t' & G & K).
    destruct (X t' G) as (s' & Y & Z). exists s', t'. auto.
Qed.
Lemma aix_write_any : forall sense_of timeout use_ctypes s t me c lba data, aix_idle s t -> ~ In me (map fst (cb_log s)) ->
  write_of c lba data bs -> proper c -> arguments_fit c -> lba + zlen data / bs <= capacity -> zlen data < 2 ^ 64 ->
  exists s' t', user_runs (aix_os sense_of (honest_sc tgt) timeout use_ctypes) me s (constructed c) s' (shown (Ok PNone)) /\
    aix_idle s' t' /\ forall k, 0 <= k < capacity -> content t' k = written bs lba (zlen data / bs) data (content t) k.
Proof.
  intros sense_of timeout use_ctypes s t me c lba data Hi Hl Wr P F In Sz.
  destruct (any_write _ tgt _ _ _ _ (aix_step (A := pyval) sense_of tgt timeout use_ctypes) s t me c lba data Hi Hl Wr P F) as (cdb & f & I & Pf & X).
  - intros cdb Hc. split; [split; [cbn [command_of]; lia|exact Sz]|reflexivity].
  - intros X. discriminate X.
  - destruct (whole_write c lba data t Wr P F In cdb f I Pf) as (t' & G & K).
    destruct (X t' G) as (s' & Y & Z). exists s', t'. auto.
Qed.
End Disk.

(** ** The part that is lost *)
Lemma front_all : forall data, zlen data < 2 ^ 32 -> front (zlen data) data = data.
Proof.
  intros data H. unfold front. rewrite announced_small by (unfold zlen in *; lia).
  unfold zlen. rewrite Nat2Z.id. apply firstn_all.
Qed.
Lemma front_loses : forall data, 2 ^ 32 <= zlen data -> zlen (front (zlen data) data) = announced (zlen data) /\
  announced (zlen data) <= zlen data - 2 ^ 32.
Proof.
  intros data H. pose proof (announced_range (zlen data)). pose proof (announced_le (zlen data) ltac:(lia)).
  split; [unfold front, zlen in *; rewrite firstn_length; lia|].
  unfold announced. pose proof (Z.div_mod (zlen data) (2 ^ 32) ltac:(lia)).
  assert (1 <= zlen data / 2 ^ 32) by (apply Z.div_le_lower_bound; lia). nia.
Qed.
Lemma front_right : forall n data, zlen data = n ->
  (front n data ++ zeros (Z.to_nat (n - announced n)) = data <-> skipn (Z.to_nat (announced n)) data = zeros (Z.to_nat (n - announced n))).
Proof.
  intros n data E. unfold front. split; intros X.
  - rewrite <- (firstn_skipn (Z.to_nat (announced n)) data) in X at 2. apply app_inv_head in X. auto.
  - rewrite <- X. apply firstn_skipn.
Qed.

Lemma ones_lost : forall n, n = 8388609 ->
  front (n * 512) (blocks (ram_content 512 (fun _ => repeat 1 512)) 0 (Z.to_nat n)) ++ zeros (Z.to_nat (n * 512 - announced (n * 512)))
    <> blocks (ram_content 512 (fun _ => repeat 1 512)) 0 (Z.to_nat n) /\ announced (n * 512) = 512.
Proof.
  intros n En. set (ct := ram_content 512 (fun _ => repeat 1 512)).
  assert (Ea : announced (n * 512) = 512) by (subst n; reflexivity).
  split; [|exact Ea]. rewrite Ea. intros X.
  assert (L : forall k, length (ct k) = 512%nat) by (intros; apply pad_length).
  assert (B : zlen (blocks ct 0 (Z.to_nat n)) = n * 512).
  { rewrite (blocks_length 512 n) by (try lia; intros; unfold zlen; rewrite L; reflexivity). lia. }
  apply (f_equal (fun l => nth 512 l 7)) in X.
  unfold front in X. rewrite Ea in X.
  rewrite app_nth2 in X by (rewrite firstn_length; unfold zlen in B; lia).
  assert (Hz : forall k m, nth k (zeros m) 7 = 0 \/ nth k (zeros m) 7 = 7).
  { intros k m. destruct (Nat.lt_ge_cases k m).
    - left. unfold zeros. apply (repeat_spec m 0). apply nth_In. rewrite repeat_length. assumption.
    - right. apply nth_overflow. rewrite zeros_length. assumption. }
  assert (Ho : nth 512 (blocks ct 0 (Z.to_nat n)) 7 = 1).
  { assert (exists k, Z.to_nat n = Datatypes.S (Datatypes.S k)) as [k Ek].
    { exists (Z.to_nat (n - 2)). lia. }
    rewrite Ek. cbn [blocks]. rewrite app_nth2 by (rewrite L; lia). rewrite L, Nat.sub_diag.
    rewrite app_nth1 by (rewrite L; lia). reflexivity. }
  rewrite Ho in X. match type of X with nth ?k (zeros ?m) 7 = 1 => destruct (Hz k m) as [Y|Y]; rewrite X in Y; discriminate Y end.
Qed.
Lemma ones_gone : forall n, n = 8388608 -> announced (n * 512) = 0.
Proof. intros n ->. reflexivity. Qed.
