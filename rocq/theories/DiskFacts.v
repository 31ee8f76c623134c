(** READ and WRITE on a conforming block device. *)
From Coq Require Import String ZArith List Bool Lia.
From Verif Require Import Base BaseFacts Gen SpecGen GenFacts Executer SpecCall
  OsCommon OsLinux OsSolaris OsAix OsWin32 SpecSg SpecDrivers SpecSession LinuxFacts SessionFacts
  Instruct Command CdbBlock SpecDevice SpecCdb CdbBlockFacts CdbSixFacts CdbAllFacts CdbPropFacts SpecExecute ExecuteFacts.
Import ListNotations.
Local Open Scope string_scope.
Local Open Scope Z_scope.

Ltac finish_tac E :=
  cbn [constructed] in E; unfold with_settings, read6, read10, read12, read16, write6, write10, write12, write16 in E;
  repeat match type of E with
  | bind (bind _ _) _ = Ok _ => apply bind_ok in E; let x := fresh "x" in let E' := fresh "E" in destruct E as [x [E' E]]; finish_tac E'
  | bind _ _ = Ok _ => apply bind_ok in E; let x := fresh "x" in let E' := fresh "E" in destruct E as [x [E' E]]; clear E'
  end;
  try (injection E as <-).

Lemma read_finish : forall c lba n bs o, read_of c lba n bs -> constructed c = Ok o -> o_finish o = raw_result.
Proof.
  intros c lba n bs o R E. destruct c; try contradiction; finish_tac E; try reflexivity;
    try (injection E1 as <-; reflexivity); reflexivity.
Qed.

Lemma write_finish : forall c lba d bs o, write_of c lba d bs -> constructed c = Ok o -> o_finish o = raw_result.
Proof.
  intros c lba n bs o R E. destruct c; try contradiction; finish_tac E; try reflexivity;
    try (injection E1 as <-; reflexivity); reflexivity.
Qed.

Lemma read_issue : forall c lba n bs, 1 <= bs -> read_of c lba n bs -> proper c -> arguments_fit c ->
  exists o cdb f, constructed c = Ok o /\ request o = Ok (ReadCmd cdb (n * bs)) /\
    interpret cdb = Some (OpRead lba n f) /\ protect f = 0 /\ 0 <= lba /\ 0 <= n.
Proof.
  intros c lba n bs B R P F. destruct (issued_cases c P) as [I _]. destruct (I F) as (o & k & C & Q & J).
  pose proof (issued_spec c P) as S. rewrite J in S. destruct S as [_ S].
  assert (K : exists cdb, k = ReadCmd cdb (n * bs)).
  { destruct c; try contradiction; cbn [read_of] in R.
    - destruct R as (-> & -> & -> & R). cbn in F. destruct (Z.eqb_spec tl 0) as [->|N].
      + destruct (read6_256_size _ _ _ J) as (cdb & -> & _). rewrite R by reflexivity. exists cdb. reflexivity.
      + eapply read6_size; eauto; lia.
    - destruct R as (-> & -> & -> & R). eapply read_size; try exact J; try exact P. left. reflexivity.
    - destruct R as (-> & -> & -> & R). eapply read_size; try exact J; try exact P. right. left. reflexivity.
    - destruct R as (-> & -> & -> & R). eapply read_size; try exact J; try exact P. right. right. left. reflexivity. }
  destruct K as [cdb ->]. cbn [command_of] in S. exists o, cdb.
  destruct c; try contradiction; cbn [read_of] in R; cbn [meaning] in S; destruct R as (-> & -> & -> & R);
    (eexists; split; [exact C|]; split; [exact Q|]; split; [exact S|]; split; [first [exact R | reflexivity]|];
     cbn in F; try destruct (tl =? 0); lia).
Qed.

Lemma write_issue : forall c lba d bs, 1 <= bs -> write_of c lba d bs -> proper c -> arguments_fit c ->
  exists o cdb f, constructed c = Ok o /\ request o = Ok (WriteCmd cdb d) /\
    interpret cdb = Some (OpWrite lba (zlen d / bs) f) /\ protect f = 0 /\ 0 <= lba /\ zlen d = zlen d / bs * bs.
Proof.
  intros c lba d bs B R P F. destruct (issued_cases c P) as [I _]. destruct (I F) as (o & k & C & Q & J).
  assert (K : exists cdb, k = WriteCmd cdb d /\ interpret cdb = Some (meaning c)).
  { destruct c; try contradiction; cbn [write_of] in R; unfold issued in J; cbn [constructed] in J;
      rewrite ?with_settings_request in J; cbn [proper] in P.
    - destruct R as (-> & -> & ->). destruct (tells_ok _ _ _ _ _ (write6_spec lba d bs P) J) as (_ & cdb & -> & X). eauto.
    - destruct R as (-> & -> & -> & _). destruct (tells_ok _ _ _ _ _ (write10_spec lba d bs kw (proj1 P) B) J) as (_ & cdb & -> & X). eauto.
    - destruct R as (-> & -> & -> & _). destruct (tells_ok _ _ _ _ _ (write12_spec lba d bs kw (proj1 P) B) J) as (_ & cdb & -> & X). eauto.
    - destruct R as (-> & -> & -> & _). destruct (tells_ok _ _ _ _ _ (write16_spec lba d bs kw (proj1 P) B) J) as (_ & cdb & -> & X). eauto. }
  destruct K as (cdb & -> & S). exists o, cdb.
  assert (M : zlen d mod bs = 0 -> zlen d = zlen d / bs * bs).
  { intro M. pose proof (Z.div_mod (zlen d) bs ltac:(lia)). lia. }
  destruct c; try contradiction; cbn [write_of] in R; cbn [meaning] in S;
    [destruct R as (-> & -> & ->)|destruct R as (-> & -> & -> & R)..];
    (eexists; split; [exact C|]; split; [exact Q|]; split; [exact S|]; split; [first [exact R | reflexivity]|];
     cbn in F; split; [lia|apply M; tauto]).
Qed.

Section Blocks.
Context (bs capacity : Z) (Hbs : 1 <= bs).

Lemma blocks_ext : forall n c1 c2 lba, 0 <= lba -> lba + Z.of_nat n <= capacity ->
  (forall k, 0 <= k < capacity -> c1 k = c2 k) -> blocks c1 lba n = blocks c2 lba n.
Proof.
  induction n as [|n IH]; intros c1 c2 lba L C E; cbn [blocks]; auto.
  rewrite E by lia. f_equal. apply IH; auto; lia.
Qed.
Lemma blocks_length : forall n c lba, 0 <= lba -> lba + Z.of_nat n <= capacity ->
  (forall k, 0 <= k < capacity -> zlen (c k) = bs) -> zlen (blocks c lba n) = Z.of_nat n * bs.
Proof.
  induction n as [|n IH]; intros c lba L C E; cbn [blocks]; [reflexivity|].
  unfold zlen in *. rewrite app_length, Nat2Z.inj_add, IH, E by (auto; lia). lia.
Qed.
Lemma written_ext : forall lba n data c1 c2 k, c1 k = c2 k -> written bs lba n data c1 k = written bs lba n data c2 k.
Proof. intros. unfold written. destruct (_ && _); auto. Qed.
End Blocks.

(** ** Sessions on a block device *)
Section Disk.
Context {T : Type} (tgt : target T) (content : T -> Z -> bytes) (bs capacity : Z).
Context (expected : scsi_command -> answer -> resp) (okc : scsi_command -> Prop) (oka : answer -> Prop).
Context (Hbs : 1 <= bs) (Dev : block_device tgt content bs capacity).
Context (good_ok : forall data, oka (good data)).
Context (small_ok : forall c, zlen (command_of c) <= 16 ->
  match c with ReadCmd _ n => n < 2 ^ 32 | WriteCmd _ d => zlen d < 2 ^ 32 end -> okc c).
Context (read_good : forall cdb data, expected (ReadCmd cdb (zlen data)) (good data) =
  RespData (if zlen data =? 0 then None else Some data)).
Context (write_good : forall cdb d, expected (WriteCmd cdb d) (good []) = RespData None).

Lemma disk_device : forall cmds t d d' l, disk_session bs capacity d cmds d' l ->
  (forall k, 0 <= k < capacity -> content t k = d k) ->
  exists t', device_session tgt expected okc oka t (map constructed cmds) t' l /\
    forall k, 0 <= k < capacity -> content t' k = d' k.
Proof.
  intros cmds t d d' l S. revert t. induction S as [d|d c lba n cmds d' l R P F In Sz S IH|d c lba data cmds d' l R P F In Sz S IH]; intros t E.
  - exists t. split; [constructor|exact E].
  - destruct (read_issue _ _ _ _ Hbs R P F) as (o & cdb & f & C & Q & I & Pf & L & N).
    destruct (bd_read _ _ _ _ Dev t cdb [] lba n f I Pf L N In) as (t1 & G & K).
    assert (B : zlen (blocks (content t) lba (Z.to_nat n)) = n * bs).
    { rewrite (blocks_length bs capacity) by (try lia; apply (bd_block _ _ _ _ Dev)). lia. }
    destruct (IH t1) as (t' & X1 & X2).
    { intros k Hk. rewrite K, E by auto. reflexivity. }
    exists t'. split; [|exact X2]. cbn [map]. rewrite C.
    replace (Ok (if n =? 0 then PNone else PBytes (blocks d lba (Z.to_nat n)))) with
      (result_of expected o (ReadCmd cdb (n * bs)) (good (blocks (content t) lba (Z.to_nat n)))).
    { eapply ds_done; eauto. apply small_ok; [|exact Sz]. eapply interpret_short; eauto. }
    unfold result_of. rewrite <- B, read_good, B. rewrite (read_finish _ _ _ _ _ R C).
    rewrite <- (blocks_ext capacity (Z.to_nat n) (content t) d) by (auto; lia).
    destruct (Z.eqb_spec n 0) as [->|N0].
    + reflexivity.
    + destruct (Z.eqb_spec (n * bs) 0); [lia|]. reflexivity.
  - destruct (write_issue _ _ _ _ Hbs R P F) as (o & cdb & f & C & Q & I & Pf & L & N).
    assert (N2 : 0 <= zlen data / bs). { apply Z.div_pos; [unfold zlen|]; lia. }
    destruct (bd_write _ _ _ _ Dev t cdb data lba (zlen data / bs) f I Pf L N2 In N) as (t1 & G & K).
    destruct (IH t1) as (t' & X1 & X2).
    { intros k Hk. rewrite K by auto. apply written_ext. auto. }
    exists t'. split; [|exact X2]. cbn [map]. rewrite C.
    replace (Ok PNone) with (result_of expected o (WriteCmd cdb data) (good [])).
    { eapply ds_done; eauto. apply small_ok; [|exact Sz]. eapply interpret_short; eauto. }
    unfold result_of. rewrite write_good, (write_finish _ _ _ _ _ R C). reflexivity.
Qed.
End Disk.

(** ** Reading back *)
Lemma skipn_plus : forall A a b (l : list A), skipn (a + b) l = skipn a (skipn b l).
Proof.
  intros A a b. revert a. induction b as [|b IH]; intros a l; [rewrite Nat.add_0_r; reflexivity|].
  rewrite Nat.add_succ_r. destruct l as [|x l]; [rewrite !skipn_nil; reflexivity|]. cbn [skipn]. apply IH.
Qed.
Lemma written_same : forall bs data d n lba0 lba, 1 <= bs -> 0 <= lba0 - lba ->
  (lba0 - lba + Z.of_nat n) * bs = zlen data ->
  blocks (written bs lba (zlen data / bs) data d) lba0 n = skipn (Z.to_nat ((lba0 - lba) * bs)) data.
Proof.
  intros bs data d n. induction n as [|n IH]; intros lba0 lba B L E.
  - cbn. rewrite skipn_all2; auto. unfold zlen in E. lia.
  - cbn [blocks]. rewrite IH by lia.
    assert (W : zlen data / bs = lba0 - lba + Z.of_nat (S n)) by (rewrite <- E; apply Z.div_mul; lia).
    unfold written at 1. rewrite W.
    replace ((lba <=? lba0) && (lba0 <? lba + (lba0 - lba + Z.of_nat (S n)))) with true
      by (symmetry; rewrite andb_true_iff, Z.leb_le, Z.ltb_lt; lia).
    unfold slice. replace (lba0 + 1 - lba) with ((lba0 - lba) + 1) by lia.
    set (a := (lba0 - lba) * bs). replace ((lba0 - lba + 1) * bs) with (a + bs) by (unfold a; lia).
    assert (A : 0 <= a) by (unfold a; apply Z.mul_nonneg_nonneg; lia).
    replace (Z.to_nat (a + bs) - Z.to_nat a)%nat with (Z.to_nat bs) by lia.
    replace (Z.to_nat (a + bs)) with (Z.to_nat bs + Z.to_nat a)%nat by lia.
    rewrite skipn_plus. apply firstn_skipn.
Qed.
Lemma read_back : forall bs data d lba, 1 <= bs -> zlen data mod bs = 0 ->
  blocks (written bs lba (zlen data / bs) data d) lba (Z.to_nat (zlen data / bs)) = data.
Proof.
  intros bs data d lba B M. pose proof (Z.div_mod (zlen data) bs ltac:(lia)) as D.
  assert (0 <= zlen data / bs) by (apply Z.div_pos; unfold zlen; lia).
  rewrite written_same by lia. rewrite Z.sub_diag. reflexivity.
Qed.
Lemma written_other : forall bs data d n lba m lba0, lba0 + Z.of_nat n <= lba \/ lba + m <= lba0 ->
  blocks (written bs lba m data d) lba0 n = blocks d lba0 n.
Proof.
  induction n as [|n IH]; intros lba m lba0 H; auto. cbn [blocks]. rewrite IH by lia. f_equal.
  unfold written. replace ((lba <=? lba0) && (lba0 <? lba + m)) with false; auto.
  symmetry. rewrite andb_false_iff, Z.leb_gt, Z.ltb_ge. lia.
Qed.

(** ** The four systems *)
Lemma pad_exact : forall l, pad (length l) l = l.
Proof. intro l. unfold pad. rewrite firstn_all, Nat.sub_diag. apply app_nil_r. Qed.
Lemma wanted_exact : forall cdb data, data_wanted (ReadCmd cdb (zlen data)) data = if zlen data =? 0 then None else Some data.
Proof.
  intros cdb data. cbn. unfold zlen. rewrite Nat2Z.id, pad_exact.
  destruct (Z.ltb_spec 0 (Z.of_nat (length data))), (Z.eqb_spec (Z.of_nat (length data)) 0); auto; lia.
Qed.
Lemma win_exact : forall cdb data, win_data (ReadCmd cdb (zlen data)) data = if zlen data =? 0 then None else Some data.
Proof.
  intros cdb data. cbn. unfold zlen. rewrite Nat2Z.id, firstn_all.
  destruct (Z.ltb_spec 0 (Z.of_nat (length data))), (Z.eqb_spec (Z.of_nat (length data)) 0); auto; lia.
Qed.

Section Systems.
Context {T : Type} (sense_of : bytes -> result unit) (tgt : target T) (content : T -> Z -> bytes) (bs capacity : Z).
Context (Hbs : 1 <= bs) (Dev : block_device tgt content bs capacity).

Theorem linux_disk : forall timeout (cmds : list (nat * command)) s t d d' l, linux_idle s t ->
  disk_session bs capacity d (map snd cmds) d' l ->
  (forall k, 0 <= k < capacity -> content t k = d k) ->
  NoDup (map fst cmds) -> (forall me, In me (map fst cmds) -> ~ In me (map fst (cb_log s))) ->
  exists s' t', user_session (linux_os sense_of (honest tgt) timeout) s
      (map (fun p => (fst p, constructed (snd p))) cmds) s' (map shown l) /\ linux_idle s' t' /\
    forall k, 0 <= k < capacity -> content t' k = d' k.
Proof.
  intros timeout cmds s t d d' l Hi S E Hn Hf.
  destruct (disk_device tgt content bs capacity linux_expected fits (linux_answer sense_of) Hbs Dev) with (5 := S) (6 := E) as (t' & X1 & X2).
  - intros data H. discriminate H.
  - intros c L K. split; [lia|exact K].
  - intros cdb data. unfold linux_expected. cbn [a_status a_driver a_host a_data good is_check_condition is_clean].
    change (is_check_condition 0 0) with false. change (is_clean 0 0 0) with true. cbv iota. rewrite wanted_exact. reflexivity.
  - reflexivity.
  - rewrite map_map in X1.
    destruct (run_sessions _ _ _ _ _ _ (linux_step (A := pyval) sense_of tgt timeout)
      (map (fun p => (fst p, constructed (snd p))) cmds) s t t' l Hi) as (s' & Y1 & Y2).
    + rewrite map_map. exact X1.
    + rewrite map_map. exact Hn.
    + rewrite map_map. exact Hf.
    + exists s', t'. auto.
Qed.

Theorem solaris_disk : forall fails timeout (cmds : list (nat * command)) s t d d' l,
  (forall data, fails (good data) = false) -> solaris_idle s t ->
  disk_session bs capacity d (map snd cmds) d' l ->
  (forall k, 0 <= k < capacity -> content t k = d k) ->
  NoDup (map fst cmds) -> (forall me, In me (map fst cmds) -> ~ In me (map fst (cb_log s))) ->
  exists s' t', user_session (solaris_os sense_of (honest_uscsi tgt fails) timeout) s
      (map (fun p => (fst p, constructed (snd p))) cmds) s' (map shown l) /\ solaris_idle s' t' /\
    forall k, 0 <= k < capacity -> content t' k = d' k.
Proof.
  intros fails timeout cmds s t d d' l Hg Hi S E Hn Hf.
  destruct (disk_device tgt content bs capacity solaris_expected fits64 (fun a => byte_status a /\ fails a = false /\
      (Z.testbit (a_status a) 1 = true -> sense_of (pad 255 (a_sense a)) = Ok tt)) Hbs Dev) with (5 := S) (6 := E) as (t' & X1 & X2).
  - intros data. split; [unfold byte_status; cbn; lia|]. split; [apply Hg|]. intro H. discriminate H.
  - intros c L K. split; [lia|]. destruct c; lia.
  - intros cdb data. unfold solaris_expected. cbn [a_status a_data good].
    change (Z.testbit 0 1) with false. change (0 =? 0) with true. cbv iota. rewrite wanted_exact. reflexivity.
  - reflexivity.
  - rewrite map_map in X1.
    destruct (run_sessions _ _ _ _ _ _ (solaris_step (A := pyval) sense_of tgt fails timeout)
      (map (fun p => (fst p, constructed (snd p))) cmds) s t t' l Hi) as (s' & Y1 & Y2);
      rewrite ?map_map; auto. exists s', t'. auto.
Qed.

Theorem aix_disk : forall timeout use_ctypes (cmds : list (nat * command)) s t d d' l, aix_idle s t ->
  disk_session bs capacity d (map snd cmds) d' l ->
  (forall k, 0 <= k < capacity -> content t k = d k) ->
  NoDup (map fst cmds) -> (forall me, In me (map fst cmds) -> ~ In me (map fst (cb_log s))) ->
  exists s' t', user_session (aix_os sense_of (honest_sc tgt) timeout use_ctypes) s
      (map (fun p => (fst p, constructed (snd p))) cmds) s' (map shown l) /\ aix_idle s' t' /\
    forall k, 0 <= k < capacity -> content t' k = d' k.
Proof.
  intros timeout use_ctypes cmds s t d d' l Hi S E Hn Hf.
  destruct (disk_device tgt content bs capacity aix_expected aix_fits (fun a =>
      Z.testbit (a_status a) 1 = true -> sense_of (pad 255 (a_sense a)) = Ok tt) Hbs Dev) with (5 := S) (6 := E) as (t' & X1 & X2).
  - intros data H. discriminate H.
  - intros c L K. split; [lia|]. destruct c; lia.
  - intros cdb data. unfold aix_expected. cbn [a_status a_data a_host good].
    change (0 =? 0) with true. cbv iota. rewrite wanted_exact. reflexivity.
  - reflexivity.
  - rewrite map_map in X1.
    destruct (run_sessions _ _ _ _ _ _ (aix_step (A := pyval) sense_of tgt timeout use_ctypes)
      (map (fun p => (fst p, constructed (snd p))) cmds) s t t' l Hi) as (s' & Y1 & Y2);
      rewrite ?map_map; auto. exists s', t'. auto.
Qed.

Theorem win_disk : forall (cmds : list (nat * command)) s t d d' l, win_idle s t ->
  disk_session bs capacity d (map snd cmds) d' l ->
  (forall k, 0 <= k < capacity -> content t k = d k) ->
  NoDup (map fst cmds) -> (forall me, In me (map fst cmds) -> ~ In me (map fst (cb_log s))) ->
  exists s' t', user_session (win_os sense_of (honest_win tgt)) s
      (map (fun p => (fst p, constructed (snd p))) cmds) s' (map shown l) /\ win_idle s' t' /\
    forall k, 0 <= k < capacity -> content t' k = d' k.
Proof.
  intros cmds s t d d' l Hi S E Hn Hf.
  destruct (disk_device tgt content bs capacity win_expected win_fits (fun a =>
      a_host a = 0 /\ (a_status a = 2 -> sense_of (pad 255 (a_sense a)) = Ok tt)) Hbs Dev) with (5 := S) (6 := E) as (t' & X1 & X2).
  - intros data. split; [reflexivity|]. intro H. discriminate H.
  - intros c L K. split; [lia|]. destruct c; lia.
  - intros cdb data. unfold win_expected. cbn [a_status a_data good].
    change (0 =? 0) with true. cbv iota. rewrite win_exact. reflexivity.
  - reflexivity.
  - rewrite map_map in X1.
    destruct (run_sessions _ _ _ _ _ _ (win_step (A := pyval) sense_of tgt)
      (map (fun p => (fst p, constructed (snd p))) cmds) s t t' l Hi) as (s' & Y1 & Y2);
      rewrite ?map_map; auto. exists s', t'. auto.
Qed.
End Systems.

(** ** A write and then a read *)
Section ReadBack.
Context {T : Type} (sense_of : bytes -> result unit) (tgt : target T) (content : T -> Z -> bytes) (bs capacity : Z).
Context (Hbs : 1 <= bs) (Dev : block_device tgt content bs capacity).

Lemma write_read : forall timeout s t me1 me2 cw cr lba data lba' n, linux_idle s t ->
  write_of cw lba data bs -> proper cw -> arguments_fit cw -> lba + zlen data / bs <= capacity -> zlen data < 2 ^ 32 ->
  read_of cr lba' n bs -> proper cr -> arguments_fit cr -> lba' + n <= capacity -> 0 < n -> n * bs < 2 ^ 32 ->
  me1 <> me2 -> ~ In me1 (map fst (cb_log s)) -> ~ In me2 (map fst (cb_log s)) ->
  exists s' t', user_session (linux_os sense_of (honest tgt) timeout) s
      [(me1, constructed cw); (me2, constructed cr)] s'
      [Returned (RVal VNone);
       Returned (RVal (VData (DBytes (blocks (written bs lba (zlen data / bs) data (content t)) lba' (Z.to_nat n)))))] /\
    linux_idle s' t'.
Proof.
  intros timeout s t me1 me2 cw cr lba data lba' n Hi W1 W2 W3 W4 W5 R1 R2 R3 R4 R5 R6 N M1 M2.
  destruct (linux_disk sense_of tgt content bs capacity Hbs Dev timeout [(me1, cw); (me2, cr)] s t (content t)
    (written bs lba (zlen data / bs) data (content t))
    [Ok PNone; Ok (PBytes (blocks (written bs lba (zlen data / bs) data (content t)) lba' (Z.to_nat n)))] Hi)
    as (s' & t' & X1 & X2 & _); auto.
  - cbn. eapply dk_write; eauto.
    pose proof (dk_read bs capacity (written bs lba (zlen data / bs) data (content t)) cr lba' n [] _ []
      R1 R2 R3 R4 R6 (dk_nil _ _ _)) as X.
    destruct (Z.eqb_spec n 0); [lia|]. exact X.
  - cbn. repeat constructor; cbn; intuition.
  - cbn. intros me [<-|[<-|[]]]; auto.
  - exists s', t'. auto.
Qed.

Lemma write_read_back : forall timeout s t me1 me2 cw cr lba data, linux_idle s t ->
  write_of cw lba data bs -> proper cw -> arguments_fit cw -> lba + zlen data / bs <= capacity -> 0 < zlen data < 2 ^ 32 ->
  read_of cr lba (zlen data / bs) bs -> proper cr -> arguments_fit cr ->
  me1 <> me2 -> ~ In me1 (map fst (cb_log s)) -> ~ In me2 (map fst (cb_log s)) ->
  exists s' t', user_session (linux_os sense_of (honest tgt) timeout) s
      [(me1, constructed cw); (me2, constructed cr)] s'
      [Returned (RVal VNone); Returned (RVal (VData (DBytes data)))] /\ linux_idle s' t'.
Proof.
  intros timeout s t me1 me2 cw cr lba data Hi W1 W2 W3 W4 W5 R1 R2 R3 N M1 M2.
  destruct (write_issue _ _ _ _ Hbs W1 W2 W3) as (_ & _ & _ & _ & _ & _ & _ & _ & D).
  assert (M : zlen data mod bs = 0). { rewrite D. apply Z.mod_mul. lia. }
  assert (Q : 0 < zlen data / bs). { destruct (Z.leb_spec (zlen data / bs) 0); [|lia]. nia. }
  destruct (write_read timeout s t me1 me2 cw cr lba data lba (zlen data / bs)) as (s' & t' & X); auto; try lia.
  rewrite read_back in X by auto. eauto.
Qed.

Lemma write_read_elsewhere : forall timeout s t me1 me2 cw cr lba data lba' n, linux_idle s t ->
  write_of cw lba data bs -> proper cw -> arguments_fit cw -> lba + zlen data / bs <= capacity -> zlen data < 2 ^ 32 ->
  read_of cr lba' n bs -> proper cr -> arguments_fit cr -> lba' + n <= capacity -> 0 < n -> n * bs < 2 ^ 32 ->
  lba' + n <= lba \/ lba + zlen data / bs <= lba' ->
  me1 <> me2 -> ~ In me1 (map fst (cb_log s)) -> ~ In me2 (map fst (cb_log s)) ->
  exists s' t', user_session (linux_os sense_of (honest tgt) timeout) s
      [(me1, constructed cw); (me2, constructed cr)] s'
      [Returned (RVal VNone); Returned (RVal (VData (DBytes (blocks (content t) lba' (Z.to_nat n)))))] /\
    linux_idle s' t'.
Proof.
  intros timeout s t me1 me2 cw cr lba data lba' n Hi W1 W2 W3 W4 W5 R1 R2 R3 R4 R5 R6 O N M1 M2.
  destruct (write_read timeout s t me1 me2 cw cr lba data lba' n) as (s' & t' & X); auto.
  rewrite written_other in X by lia. eauto.
Qed.
End ReadBack.

(** ** A device that conforms *)

(** Used in the Examples (models no code): a disk of blocks of [bs] bytes, all state of which
    is its content. *)
Definition ram_disk (bs : Z) : target (Z -> bytes) := fun t cdb data =>
  match interpret cdb with
  | Some (OpRead lba n _) => (t, good (blocks (fun k => pad (Z.to_nat bs) (t k)) lba (Z.to_nat n)))
  | Some (OpWrite lba n _) => (written bs lba n data t, good [])
  | _ => (t, Answer 2 0 0 [] [112; 0; 5])
  end.
Definition ram_content (bs : Z) (t : Z -> bytes) : Z -> bytes := fun k => pad (Z.to_nat bs) (t k).

Lemma pad_length : forall n l, length (pad n l) = n.
Proof. intros n l. unfold pad. rewrite app_length, firstn_length, zeros_length. lia. Qed.
Lemma ram_conforms : forall bs capacity, 1 <= bs -> block_device (ram_disk bs) (ram_content bs) bs capacity.
Proof.
  intros bs capacity B. constructor.
  - intros t k _. unfold zlen, ram_content. rewrite pad_length. lia.
  - intros t cdb data lba n f I _ _ _ _. exists t. unfold ram_disk. rewrite I. auto.
  - intros t cdb data lba n f I _ L N C D. eexists. unfold ram_disk. rewrite I. split; [reflexivity|].
    intros k K. unfold ram_content, written.
    destruct ((lba <=? k) && (k <? lba + n)) eqn:E; [|reflexivity].
    apply andb_true_iff in E. rewrite Z.leb_le, Z.ltb_lt in E.
    set (a := (k - lba) * bs). assert (A : 0 <= a) by (unfold a; apply Z.mul_nonneg_nonneg; lia).
    assert (X : length (slice (Z.to_nat a) (Z.to_nat (a + bs)) data) = Z.to_nat bs).
    { unfold slice. rewrite firstn_length, skipn_length. unfold zlen in D.
      assert (a + bs <= Z.of_nat (length data)). { rewrite D. unfold a. nia. } lia. }
    rewrite <- X at 1. apply pad_exact.
Qed.
