(** Facts about command objects made without optional arguments (C94). *)
From Coq Require Import String ZArith List Bool Lia.
From Verif Require Import Base BaseFacts Gen Executer OsCommon Instruct InstructFacts Command CdbBlock CdbPrimary SpecDevice SpecCdb SpecGen SpecExecute SpecPortable SpecSg SpecDrivers SpecReserve SpecAdaptive AdaptiveFacts ReserveFacts CdbResponseFacts
  CdbLemmas CdbBlockFacts CdbSixFacts UnmapFacts CdbPrimaryFacts CdbReserveFacts CdbPersistFacts SpecLayout SpecPages SpecVpd Pages InquiryFacts Defaults SpecDefaults.
From Verif Require VpdFacts DiskFacts.
Import ListNotations.
Local Open Scope string_scope.
Local Open Scope list_scope.
Local Open Scope Z_scope.

Lemma with_nothing : forall r, with_settings [] r = r.
Proof. intros [[a p w f]|e]; [|reflexivity]. unfold with_settings, assigned. cbn. rewrite ?app_nil_r. reflexivity. Qed.

Lemma construct_same : forall c, construct c = constructed (spelled_out c).
Proof.
  intro c. destruct c; cbn [construct spelled_out constructed]; rewrite ?with_nothing; reflexivity.
Qed.
Lemma nothing_set : forall l, only_sets l [].
Proof. intros l. unfold only_sets. try (intros n v H; inversion H). constructor. Qed.

Lemma asks_when : forall r ok ok' n n' op op', asks r ok n op -> (ok <-> ok') -> n = n' -> op = op' -> asks r ok' n' op'.
Proof. intros [[]|] ok ok' n n' op op' A E -> ->; cbn in *; tauto. Qed.
Lemma tells_when : forall r ok ok' d op op', tells r ok d op -> (ok <-> ok') -> op = op' -> tells r ok' d op'.
Proof. intros [[]|] ok ok' d op op' A E ->; cbn in *; tauto. Qed.

Lemma none_fit : forall l, settings_fit l [] <-> forall n w, In (n, w) l -> 0 < 2 ^ w.
Proof.
  intro l. unfold settings_fit, setting. rewrite Forall_forall. cbn [lookup]. split.
  - intros H n w I. specialize (H (n, w) I). cbn in H. lia.
  - intros H [n w] I. cbn [fst snd]. specialize (H n w I). lia.
Qed.
Ltac none := apply none_fit; intros ? ? I_; cbn in I_; repeat (destruct I_ as [E_|I_]; [injection E_ as <- <-; lia|]); contradiction.

Lemma short_spec : forall c, short_asks c (do o <- construct c; request o).
Proof.
  assert (R : forall r, (do o <- r; request o) = (do o <- r; request (assigned [] o))).
  { intros [[? ? ? ?]|e]; reflexivity. }
  intro c. destruct c; cbn [construct short_asks]; unfold DEFAULT_BLOCK_SIZE, WRITE_EXCLUSIVE, blocks_of, whole_blocks.
  - eapply asks_when; [apply read6_spec|tauto|destruct (Z.eqb_spec tl 0) as [->|N]; [reflexivity|]|reflexivity].
    destruct (Z.eqb_spec (512 * tl) 0); lia.
  - rewrite R. eapply asks_when; [apply read10_spec, nothing_set| |lia|reflexivity]. split; [tauto|]. intro H. repeat split; try lia. none.
  - rewrite R. eapply asks_when; [apply read12_spec, nothing_set| |lia|reflexivity]. split; [tauto|]. intro H. repeat split; try lia. none.
  - rewrite R. eapply asks_when; [apply read16_spec, nothing_set| |lia|reflexivity]. split; [tauto|]. intro H. repeat split; try lia. none.
  - eapply tells_when; [apply write6_spec; lia|tauto|reflexivity].
  - rewrite R. eapply tells_when; [apply write10_spec; [apply nothing_set|lia]| |reflexivity]. split; [tauto|]. intro H. repeat split; try lia. none.
  - rewrite R. eapply tells_when; [apply write12_spec; [apply nothing_set|lia]| |reflexivity]. split; [tauto|]. intro H. repeat split; try lia. none.
  - rewrite R. eapply tells_when; [apply write16_spec; [apply nothing_set|lia]| |reflexivity]. split; [tauto|]. intro H. repeat split; try lia. none.
  - rewrite R. eapply tells_when; [apply write_same10_spec; apply nothing_set| |reflexivity]. split; [tauto|]. intro H. repeat split; try lia. none.
  - rewrite R. eapply tells_when; [apply write_same16_spec; apply nothing_set| |reflexivity]. split; [tauto|]. intro H. repeat split; try lia. none.
  - rewrite R. eapply tells_when; [apply compare_and_write_spec; [apply nothing_set|lia]| |reflexivity]. split; [tauto|]. intro H. repeat split; try lia. none.
  - vm_compute. auto.
  - eapply asks_when; [apply read_capacity10_spec|lia|reflexivity|reflexivity].
  - eapply asks_when; [apply read_capacity16_spec|lia|reflexivity|reflexivity].
  - eapply asks_when; [apply report_luns_spec|lia|reflexivity|reflexivity].
  - eapply asks_when; [apply rtpg_spec|lia|reflexivity|reflexivity].
  - rewrite R. eapply asks_when; [apply log_sense_spec, nothing_set| |reflexivity|reflexivity]. split; [tauto|]. intro H. repeat split; try lia. none.
  - eapply asks_when; [apply inquiry_spec|cbn; unfold STANDARD_INQUIRY_MINIMAL_DATA_LENGTH; lia|reflexivity|reflexivity].
  - exact (tells_when _ _ True _ _ _ (reserve10_spec 0) ltac:(lia) eq_refl).
  - exact (tells_when _ _ True _ _ _ (release10_spec 0) ltac:(lia) eq_refl).
  - eapply asks_when; [apply pr_in_spec|lia|reflexivity|reflexivity].
  - assert (Y : (0 <= sa <= 8 /\ sa <> 7) \/ ~ (0 <= sa <= 8 /\ sa <> 7)) by lia. destruct Y as [Y|Y].
    + assert (C : sa = 0 \/ sa = 1 \/ sa = 2 \/ sa = 3 \/ sa = 4 \/ sa = 5 \/ sa = 6 \/ sa = 8) by lia.
      repeat (destruct C as [-> | C]; [vm_compute; repeat split; congruence|]). subst. vm_compute; repeat split; congruence.
    + unfold pr_out. assert (C : parameter_list_class_of sa = None \/ parameter_list_class_of sa = Some RegisterAndMove).
      { assert (D : sa = 7 \/ (sa < 0 \/ 8 < sa)) by lia. destruct D as [-> | D]; [right; reflexivity|]. left.
        destruct sa as [|p|p]; [lia| |reflexivity]. do 4 (destruct p as [p|p|]; try reflexivity; try lia). }
      destruct C as [-> | ->]; cbn [bind]; exact Y.
Qed.

(** * Executed on the four systems *)

Lemma layout_firstn : forall l n buf, (layout_end l <= n)%nat -> Forall (fun e => match snd e with Num _ _ | Bits _ _ _ => True | _ => False end) l ->
  layout_values l (firstn n buf) = layout_values l buf.
Proof.
  intros l n buf L F. unfold layout_values. apply map_ext_in. intros [k p] I. cbn [fst snd].
  assert (X : (loc_end p <= n)%nat).
  { unfold layout_end in L. pose proof (proj1 (list_max_le _ _) L) as M. rewrite Forall_forall in M. apply M.
    apply in_map_iff. exists (k, p). auto. }
  rewrite Forall_forall in F. specialize (F _ I). cbn [snd] in F. destruct p; try contradiction; cbn [loc_value loc_end] in *.
  - unfold ub. rewrite VpdFacts.slice_firstn by lia. reflexivity.
  - unfold bf. rewrite VpdFacts.byte_at_firstn by lia. reflexivity.
Qed.
Lemma basic_object : forall data, (36 <= length data)%nat -> bytes_ok data ->
  standard_inquiry_object (firstn 36 data) = basic_inquiry_object data.
Proof.
  intros data L B. unfold standard_inquiry_object, basic_inquiry_object, peripheral_value.
  rewrite !layout_firstn; [|vm_compute; lia|repeat constructor|vm_compute; lia|repeat constructor].
  rewrite !VpdFacts.slice_firstn by lia.
  assert (U : ub 4 5 (firstn 36 data) = ub 4 5 data) by (unfold ub; rewrite VpdFacts.slice_firstn by lia; reflexivity).
  rewrite U. do 2 f_equal. f_equal. do 4 f_equal. unfold when. destruct (Z.leb_spec (ub 4 5 data) 31).
  { replace (31 <? ub 4 5 data) with false; [reflexivity|]. symmetry. apply Z.ltb_ge. lia. }
  replace (31 <? ub 4 5 data) with true by (symmetry; apply Z.ltb_lt; lia).
  unfold extended_object.
  assert (N : inquiry_end (firstn 36 data) = 36%nat) by (unfold inquiry_end; rewrite firstn_length, U; lia).
  rewrite N. reflexivity.
Qed.

Section Run.
Context (T : Type) (sys : system T) (tgt : target T).

Lemma inquiry_run : forall data t s, one_of_four sys -> idle sys s t -> reports_inquiry tgt data -> (36 <= length data)%nat ->
  exists s' t', sync_wait_ends (coroutine (os_of sys tgt) (run_short SStandardInquiry)) s s'
      (shown (Ok (basic_inquiry_object data))) /\ idle sys s' t'.
Proof.
  intros data t s F Hi [B Ans] L.
  pose proof (short_spec SStandardInquiry) as Q. rewrite construct_same in Q.
  destruct (issued (spelled_out SStandardInquiry)) as [k|e] eqn:J; unfold issued in J; rewrite J in Q; [|exfalso; apply Q; exact Logic.I].
  destruct k as [cdb n|]; [|contradiction]. destruct Q as (_ & -> & X).
  destruct (Ans t cdb [] 36 X) as (t1 & E).
  assert (D : does tgt (pads sys) t (run_short SStandardInquiry) t1 (Ok (basic_inquiry_object data))).
  { eapply does_seen; [exact Logic.I|exact J|cbn [moderate]; lia|exact E|apply ordinary_good| |apply (does_finish _ _ _ _ (Ok (basic_inquiry_object data)))].
    rewrite seen_nice. destruct (got_data (pads sys) cdb 36 data) as (m & -> & _); [lia|unfold zlen; lia|].
    change (Z.to_nat 36) with 36%nat. rewrite firstn_app. replace (36 - length data)%nat with 0%nat by lia. rewrite firstn_O, app_nil_r.
    cbn [spelled_out constructed]. unfold yields, inquiry. cbn [bind o_finish]. unfold parsed.
    rewrite standard_inquiry_spec by (apply bytes_ok_firstn; exact B). rewrite firstn_length, Nat.min_l by lia. cbn [Nat.leb].
    f_equal. apply basic_object; assumption. }
  destruct (adaptive _ _ _ _ _ _ _ _ F D Hi) as (s' & E' & I). eauto.
Qed.

Lemma keys_default : forall g keys t s, one_of_four sys -> idle sys s t -> reports_keys tgt g keys ->
  exists s' t', sync_wait_ends (coroutine (os_of sys tgt) (run_short (SPrIn 0))) s s'
      (shown (Ok (keys_object g (zlen keys) (if zlen keys <=? 64 then PList (map PInt keys) else PNone)))) /\ idle sys s' t'.
Proof.
  intros g keys t s F Hi [(G & K & N) Ans].
  destruct (pr_in_issued 0 520) as (cdb & J & X); [lia|lia|]. destruct (Ans t cdb [] 520 X) as (t1 & E).
  set (v := keys_object _ _ _).
  assert (D : does tgt (pads sys) t (run_short (SPrIn 0)) t1 (Ok v)).
  { eapply does_seen; [exact Logic.I|exact J|cbn [moderate]; lia|exact E|apply ordinary_good| |apply (does_finish _ _ _ _ (Ok v))].
    cbn [spelled_out]. rewrite (proj1 (keys_seen (pads sys) g keys cdb 520 G K N ltac:(lia))). unfold v. do 2 f_equal.
    destruct (Z.leb_spec (8 + 8 * zlen keys) 520), (Z.leb_spec (zlen keys) 64); auto; lia. }
  destruct (adaptive _ _ _ _ _ _ _ _ F D Hi) as (s' & E' & I). eauto.
Qed.

Lemma luns_default : forall numbers t s, one_of_four sys -> idle sys s t -> Forall (fun n => 0 <= n < 16384) numbers ->
  reports_luns tgt (map (fun n => n * 2 ^ 48) numbers) -> zlen numbers <= 2047 ->
  exists s' t', sync_wait_ends (coroutine (os_of sys tgt) (run_short SReportLuns)) s s'
      (shown (Ok (luns_object (map (fun n => n * 2 ^ 48) numbers) numbers))) /\ idle sys s' t'.
Proof.
  intros numbers t s F Hi R [(K & N) Ans] C.
  destruct (luns_issued 0 16384 false) as (cdb & J & X); [lia|lia|]. destruct (Ans t cdb [] 0 16384 X) as (t1 & E).
  set (v := luns_object _ _).
  assert (D : does tgt (pads sys) t (run_short SReportLuns) t1 (Ok v)).
  { eapply does_seen; [exact Logic.I|exact J|cbn [moderate]; lia|exact E|apply ordinary_good| |apply (does_finish _ _ _ _ (Ok v))].
    cbn [spelled_out].
    destruct (luns_seen (pads sys) 0 16384 false (map (fun n => n * 2 ^ 48) numbers) cdb) as (rest & ->);
      [lia|unfold zlen in *; rewrite map_length; lia|].
    apply report_luns_simple; [lia|exact R|]. unfold zlen in *. lia. }
  destruct (adaptive _ _ _ _ _ _ _ _ F D Hi) as (s' & E' & I). eauto.
Qed.

Lemma luns_default_many : forall luns t s, one_of_four sys -> idle sys s t -> reports_luns tgt luns -> 2047 < zlen luns ->
  exists s' t', sync_wait_ends (coroutine (os_of sys tgt) (run_short SReportLuns)) s s' (Threw EInstruct) /\ idle sys s' t'.
Proof. intros luns t s F Hi D N. apply (short_luns_run _ _ _ luns 0 16384 false t s F Hi D); lia. Qed.

Lemma blocks_length : forall bs (content : Z -> bytes) n lba, (forall k, lba <= k < lba + Z.of_nat n -> zlen (content k) = bs) ->
  zlen (blocks content lba n) = Z.of_nat n * bs.
Proof.
  intros bs content n. induction n as [|n IH]; intros lba H; [reflexivity|]. cbn [blocks]. unfold zlen in *. rewrite app_length, Nat2Z.inj_add.
  rewrite IH, H by (intros; try apply H; lia). lia.
Qed.

Lemma read_default : forall content bs capacity c lba n t s, one_of_four sys -> idle sys s t ->
  block_device tgt content bs capacity -> 512 <= bs -> short_read c lba n -> arguments_fit (spelled_out c) -> 1 <= n ->
  512 * n < 2 ^ 32 -> lba + n <= capacity ->
  exists s' t', sync_wait_ends (coroutine (os_of sys tgt) (run_short c)) s s'
      (shown (Ok (PBytes (firstn (Z.to_nat (512 * n)) (blocks (content t) lba (Z.to_nat n)))))) /\ idle sys s' t' /\
    forall k, 0 <= k < capacity -> content t' k = content t k.
Proof.
  intros content bs capacity c lba n t s F Hi Dev B R A N M Cap.
  assert (RO : read_of (spelled_out c) lba n 512 /\ proper (spelled_out c)).
  { destruct c; cbn [short_read] in R; try contradiction; cbn [spelled_out read_of proper].
    1: destruct R as (-> & -> & _); split; [|exact Logic.I]; repeat split; [destruct (Z.eqb_spec n 0); lia].
    all: destruct R as (-> & ->); split; [repeat split|apply nothing_set]. }
  destruct RO as [RO P].
  destruct (DiskFacts.read_issue _ lba n 512 ltac:(lia) RO P A) as (o & cdb & f & C & Q & X & Pf & L0 & N0).
  assert (J : issued (spelled_out c) = Ok (ReadCmd cdb (n * 512))) by (unfold issued; rewrite C; exact Q).
  destruct (bd_read _ _ _ _ Dev t cdb [] lba n f X Pf L0 N0 Cap) as (t1 & E & Keep).
  set (v := PBytes _).
  assert (D : does tgt (pads sys) t (run_short c) t1 (Ok v)).
  { eapply does_seen; [exact P|exact J|cbn [moderate]; lia|exact E|apply ordinary_good| |apply (does_finish _ _ _ _ (Ok v))].
    assert (Len : zlen (blocks (content t) lba (Z.to_nat n)) = n * bs).
    { rewrite (blocks_length bs); [lia|]. intros k Hk. apply (bd_block _ _ _ _ Dev). lia. }
    assert (Y : forall d, yields (constructed (spelled_out c)) d = raw_result [] d).
    { intro d. unfold yields. rewrite C. cbn [bind]. rewrite (DiskFacts.read_finish _ _ _ _ _ RO C). reflexivity. }
    unfold seen, good. cbn [a_status a_data Z.eqb]. rewrite Y. unfold v. replace (n * 512) with (512 * n) by lia.
    assert (Big : 512 * n <= n * bs) by nia.
    destruct (pads sys); cbn [data_wanted win_data].
    - replace (0 <? 512 * n) with true by (symmetry; apply Z.ltb_lt; lia). unfold raw_result. do 2 f_equal. unfold pad.
      replace (Z.to_nat (512 * n) - length (blocks (content t) lba (Z.to_nat n)))%nat with 0%nat by (unfold zlen in Len; lia).
      apply app_nil_r.
    - replace (0 <? 512 * n) with true by (symmetry; apply Z.ltb_lt; lia).
      replace (0 <? zlen (blocks (content t) lba (Z.to_nat n))) with true by (symmetry; apply Z.ltb_lt; lia). reflexivity. }
  destruct (adaptive _ _ _ _ _ _ _ _ F D Hi) as (s' & E' & I). exists s', t1. auto.
Qed.
End Run.
