(** Lemmas on the coroutines that copy disks. *)
From Coq Require Import String ZArith List Bool Lia PeanoNat.
From Verif Require Import Base BaseFacts Gen SpecGen GenFacts Executer SpecCall ExecFacts
  OsCommon OsLinux OsSolaris OsAix OsWin32 SpecSg SpecDrivers SpecSession LinuxFacts SessionFacts
  Instruct Command CdbPrimary CdbBlock SpecDevice SpecCdb CdbPrimaryFacts CdbBlockFacts CdbResponseFacts CdbAllFacts CdbPropFacts SpecExecute ExecuteFacts
  Sense SpecSense SenseFacts SpecPortable PortableFacts DiskFacts SpecReserve ReserveFacts SpecAdaptive AdaptiveFacts SpecShared SharedFacts SpecClone.
Import ListNotations.
Local Open Scope string_scope.
Local Open Scope list_scope.
Local Open Scope Z_scope.

(** * Pieces *)

Lemma blocks_app : forall c a b lba, blocks c lba (a + b) = blocks c lba a ++ blocks c (lba + Z.of_nat a) b.
Proof.
  intros c a. induction a as [|a IH]; intros b lba; cbn [Nat.add blocks].
  - rewrite Z.add_0_r. reflexivity.
  - rewrite IH, <- app_assoc. do 2 f_equal. f_equal. lia.
Qed.

Section Extents.
Context (lba n chunk : Z) (Hn : 0 <= n) (Hc : 1 <= chunk).
Let count := Z.to_nat ((n + chunk - 1) / chunk).
Let piece (i : nat) := (lba + chunk * Z.of_nat i, Z.min chunk (n - chunk * Z.of_nat i)).

Lemma count_enough : n <= chunk * Z.of_nat count < n + chunk.
Proof. unfold count. Z.to_euclidean_division_equations. nia. Qed.

Lemma extent_ok : forall e, In e (extents lba n chunk) ->
  lba <= fst e /\ 1 <= snd e <= chunk /\ fst e + snd e <= lba + n.
Proof.
  intros e I. unfold extents in I. apply in_map_iff in I. destruct I as (i & <- & I). apply in_seq in I. cbn [fst snd].
  pose proof count_enough as C. unfold count in C. nia.
Qed.

Lemma extent_of : forall k, lba <= k < lba + n -> exists e, In e (extents lba n chunk) /\ fst e <= k < fst e + snd e.
Proof.
  intros k K. exists (piece (Z.to_nat ((k - lba) / chunk))).
  assert (E : 0 <= (k - lba) / chunk) by (apply Z.div_pos; lia).
  pose proof (Z.mul_div_le (k - lba) chunk ltac:(lia)). pose proof (Z.mul_succ_div_gt (k - lba) chunk ltac:(lia)).
  split.
  - unfold extents. fold count. apply in_map_iff. exists (Z.to_nat ((k - lba) / chunk)). split; [reflexivity|]. apply in_seq.
    pose proof count_enough. nia.
  - unfold piece. cbn [fst snd]. rewrite Z2Nat.id by lia. nia.
Qed.

Lemma pieces_blocks : forall c m i, (i + m = count)%nat ->
  flat_map (fun e => blocks c (fst e) (Z.to_nat (snd e))) (map piece (seq i m)) =
  blocks c (lba + chunk * Z.of_nat i) (Z.to_nat (n - chunk * Z.of_nat i)).
Proof.
  intros c m. pose proof count_enough as C. induction m as [|m IH]; intros i E.
  - cbn. replace (Z.to_nat _) with 0%nat by nia. reflexivity.
  - cbn [seq map flat_map]. rewrite IH by lia. unfold piece at 1 2. cbn [fst snd].
    replace (Z.to_nat (n - chunk * Z.of_nat i)) with
      (Z.to_nat (Z.min chunk (n - chunk * Z.of_nat i)) + Z.to_nat (n - chunk * Z.of_nat (Datatypes.S i)))%nat by nia.
    rewrite blocks_app. f_equal.
    destruct (Z.le_gt_cases (n - chunk * Z.of_nat i) chunk).
    + replace (Z.to_nat (n - chunk * Z.of_nat (Datatypes.S i))) with 0%nat by nia. reflexivity.
    + f_equal. nia.
Qed.
Lemma extents_blocks : forall c, flat_map (fun e => blocks c (fst e) (Z.to_nat (snd e))) (extents lba n chunk) = blocks c lba (Z.to_nat n).
Proof.
  intro c. pose proof (pieces_blocks c count 0%nat eq_refl) as P. unfold extents. fold count. fold piece. rewrite P.
  f_equal; [lia|f_equal; lia].
Qed.
End Extents.

(** * Running a program for every piece *)

Lemma each_does : forall T (tgt : target T) padded (keeps : T -> Prop) piece f l,
  (forall e t, In e l -> keeps t -> exists t', does tgt padded t (piece e) t' (Ok (PBytes (f e))) /\ keeps t') ->
  forall t acc, keeps t -> exists t', does tgt padded t (each piece l acc) t' (Ok (PBytes (acc ++ flat_map f l))) /\ keeps t'.
Proof.
  intros T tgt padded keeps piece f l. induction l as [|e l IH]; intros H t acc K.
  - exists t. cbn. rewrite app_nil_r. split; [constructor|exact K].
  - destruct (H e t (or_introl eq_refl) K) as (t1 & D1 & K1).
    destruct (IH (fun e' t' I => H e' t' (or_intror I)) t1 (acc ++ f e) K1) as (t2 & D2 & K2).
    exists t2. split; [|exact K2]. cbn [each]. eapply does_call; [exact D1|]. cbn [flat_map].
    rewrite app_assoc. exact D2.
Qed.

Lemma each_fails : forall T (tgt : target T) padded (keeps : T -> Prop) piece f x l1 e l2,
  (forall e t, In e l1 -> keeps t -> exists t', does tgt padded t (piece e) t' (Ok (PBytes (f e))) /\ keeps t') ->
  (forall t, keeps t -> exists t', does tgt padded t (piece e) t' (Err x) /\ keeps t') ->
  forall t acc, keeps t -> exists t', does tgt padded t (each piece (l1 ++ e :: l2) acc) t' (Err x) /\ keeps t'.
Proof.
  intros T tgt padded keeps piece f x l1 e l2. induction l1 as [|e1 l1 IH]; intros H Hx t acc K; cbn [app each].
  - destruct (Hx t K) as (t1 & D1 & K1). exists t1. split; [|exact K1]. eapply does_call; [exact D1|]. constructor.
  - destruct (H e1 t (or_introl eq_refl) K) as (t1 & D1 & K1).
    destruct (IH (fun e' t' I => H e' t' (or_intror I)) Hx t1 (acc ++ f e1) K1) as (t2 & D2 & K2).
    exists t2. split; [|exact K2]. eapply does_call; [exact D1|]. exact D2.
Qed.

Lemma first_such : forall A (p : A -> bool) l, existsb p l = true ->
  exists l1 e l2, l = l1 ++ e :: l2 /\ p e = true /\ forall x, In x l1 -> p x = false.
Proof.
  intros A p l. induction l as [|e l IH]; cbn; [discriminate|]. intro H. destruct (p e) eqn:E.
  - exists [], e, l. repeat split; auto. intros x [].
  - cbn in H. destruct (IH H) as (l1 & e1 & l2 & -> & E1 & N1). exists (e :: l1), e1, l2. repeat split; auto.
    intros x [<-|I]; auto.
Qed.

(** * Capacity *)

Lemma full_seen : forall padded c cdb b, issued c = Ok (ReadCmd cdb (zlen b)) -> 0 < zlen b ->
  seen padded c (ReadCmd cdb (zlen b)) (good b) = yields (constructed c) (Some b).
Proof.
  intros padded c cdb b _ L. unfold seen. cbn [good a_status a_data]. cbn [Z.eqb]. f_equal.
  rewrite wanted_exact, win_exact. replace (zlen b =? 0) with false by (symmetry; apply Z.eqb_neq; lia).
  destruct padded; reflexivity.
Qed.

Lemma slice_left : forall a b l r, length l = b -> slice a b (l ++ r) = skipn a l.
Proof.
  intros a b l r E. unfold slice. destruct (Nat.le_gt_cases a b) as [L|L].
  - rewrite skipn_app, firstn_app, skipn_length. replace (b - a - (length l - a))%nat with 0%nat by lia.
    cbn [firstn]. rewrite app_nil_r. apply firstn_all2. rewrite skipn_length. lia.
  - replace (b - a)%nat with 0%nat by lia. cbn [firstn]. symmetry. apply skipn_all2. lia.
Qed.
Lemma slice_right : forall k w l r, length l = k -> slice k (k + w) (l ++ r) = firstn w r.
Proof.
  intros k w l r E. unfold slice. rewrite skipn_app, <- E, skipn_all, Nat.sub_diag. cbn [app skipn].
  f_equal. lia.
Qed.

Section Capacity.
Context {T : Type} (tgt : target T) (content : T -> Z -> bytes) (bs n : Z) (more : bytes).
Hypothesis R : reports_capacity tgt content bs n more.
Hypothesis B : 1 <= bs < 2 ^ 32.
Hypothesis N : 1 <= n <= 2 ^ 64.

Let same (t t' : T) := forall k, 0 <= k < n -> content t' k = content t k.

Lemma ten_ask : forall padded t next, exists t1 v, same t t1 /\
  attr "last_logical_block_address" v = Z.min (n - 1) (2 ^ 32 - 1) /\ attr "block_length_in_bytes" v = bs /\
  forall t' r, does tgt padded t1 (next (Ok v)) t' r -> does tgt padded t (Do (ReadCapacity10 0 0) next) t' r.
Proof.
  intros padded t next. destruct R as [_ H10 _].
  destruct (issued (ReadCapacity10 0 0)) as [k|] eqn:J; [|vm_compute in J; discriminate].
  destruct (asks_ok _ _ _ _ _ (read_capacity10_spec 0 0) J) as (_ & cdb & -> & I).
  destruct (H10 t cdb [] I) as (t1 & E & S1).
  set (b := be_bytes 4 (Z.min (n - 1) (2 ^ 32 - 1)) ++ be_bytes 4 bs) in *.
  assert (L4 : forall z, length (be_bytes 4 z) = 4%nat) by (intro; apply be_bytes_length).
  assert (Zb : zlen b = 8) by (unfold b, zlen; rewrite app_length, !L4; reflexivity).
  assert (Y : yields (read_capacity10 0 0) (Some b) = Ok (PObj "ReportReadCapacityData10"
             [("last_logical_block_address", PInt (ub 0 4 b)); ("block_length_in_bytes", PInt (ub 4 8 b))])).
  { rewrite capacity10_yields; [rewrite Zb; reflexivity|]. unfold b. apply Forall_app. split; apply be_bytes_ok. }
  exists t1. eexists. split; [exact S1|]. split; [|split]; cycle 2.
  - intros t' r D. eapply (does_seen _ _ _ _ _ _ (ReadCmd cdb 8)).
    + exact Logic.I.
    + exact J.
    + cbn. lia.
    + exact E.
    + apply ordinary_good.
    + rewrite <- Zb. rewrite full_seen by (rewrite ?Zb; auto; lia). exact Y.
    + exact D.
  - cbn [attr lookup String.eqb Ascii.eqb Bool.eqb]. unfold ub, b.
    rewrite slice_left by apply L4. rewrite skipn_O. apply be_val_be_bytes_small. change (256 ^ Z.of_nat 4) with (2 ^ 32). lia.
  - cbn [attr lookup String.eqb Ascii.eqb Bool.eqb]. unfold ub, b.
    change 8%nat with (4 + 4)%nat. rewrite slice_right by apply L4. rewrite firstn_all2 by (rewrite L4; lia).
    apply be_val_be_bytes_small. change (256 ^ Z.of_nat 4) with (2 ^ 32). lia.
Qed.

Lemma sixteen_ask : forall padded t next, exists t1 v, same t t1 /\
  attr "last_logical_block_address" v = n - 1 /\ attr "block_length_in_bytes" v = bs /\
  forall t' r, does tgt padded t1 (next (Ok v)) t' r -> does tgt padded t (Do (ReadCapacity16 0 0) next) t' r.
Proof.
  intros padded t next. destruct R as [[Zm Om] _ H16].
  destruct (issued (ReadCapacity16 0 0)) as [k|] eqn:J; [|vm_compute in J; discriminate].
  destruct (asks_ok _ _ _ _ _ (read_capacity16_spec 0 0) J) as (_ & cdb & -> & I).
  destruct (H16 t cdb [] 32 I) as (t1 & E & S1).
  set (b := be_bytes 8 (n - 1) ++ be_bytes 4 bs ++ more) in *.
  assert (L8 : length (be_bytes 8 (n - 1)) = 8%nat) by apply be_bytes_length.
  assert (L4 : length (be_bytes 4 bs) = 4%nat) by apply be_bytes_length.
  assert (Lm : length more = 20%nat) by (unfold zlen in Zm; lia).
  assert (Zb : zlen b = 32) by (unfold b, zlen; rewrite !app_length, L8, L4, Lm; reflexivity).
  assert (Fb : firstn (Z.to_nat 32) b = b) by (apply firstn_all2; unfold zlen in Zb; lia).
  rewrite Fb in E.
  assert (Ob : bytes_ok b) by (unfold b; apply Forall_app; split; [apply be_bytes_ok|]; apply Forall_app; split; [apply be_bytes_ok|exact Om]).
  pose proof (capacity16_yields 0 0 b Ob) as Y. rewrite Zb in Y. cbn [Z.leb Z.compare Pos.compare Pos.compare_cont] in Y.
  exists t1. eexists. split; [exact S1|]. split; [|split]; cycle 2.
  - intros t' r D. eapply (does_seen _ _ _ _ _ _ (ReadCmd cdb 32)).
    + exact Logic.I.
    + exact J.
    + cbn. lia.
    + exact E.
    + apply ordinary_good.
    + rewrite <- Zb. rewrite full_seen by (rewrite ?Zb; auto; lia). exact Y.
    + exact D.
  - cbn [attr lookup String.eqb Ascii.eqb Bool.eqb]. unfold ub, b.
    rewrite slice_left by exact L8. rewrite skipn_O. apply be_val_be_bytes_small. change (256 ^ Z.of_nat 8) with (2 ^ 64). lia.
  - cbn [attr lookup String.eqb Ascii.eqb Bool.eqb]. unfold ub, b.
    change 12%nat with (8 + 4)%nat. rewrite slice_right by exact L8. rewrite firstn_app, L4, Nat.sub_diag, firstn_O.
    rewrite app_nil_r, firstn_all2 by lia. apply be_val_be_bytes_small. change (256 ^ Z.of_nat 4) with (2 ^ 32). lia.
Qed.

(** The rest of the program gets the number of blocks and the block size. *)
Lemma capacity_does : forall padded t next, exists t1, same t t1 /\
  forall t' r, does tgt padded t1 (next n bs) t' r -> does tgt padded t (with_capacity next) t' r.
Proof.
  intros padded t next. unfold with_capacity.
  match goal with |- context [Do (ReadCapacity10 0 0) ?f] => destruct (ten_ask padded t f) as (t1 & v & S1 & A1 & A2 & K) end.
  destruct (Z.eqb_spec (attr "last_logical_block_address" v) (2 ^ 32 - 1)) as [E|E].
  - destruct (sixteen_ask padded t1 (size_told next)) as (t2 & v2 & S2 & C1 & C2 & K2).
    exists t2. split; [intros k L; rewrite S2, S1; auto|]. intros t' r D. apply K. apply K2. cbn [size_told]. rewrite C1, C2, Z.sub_add. exact D.
  - exists t1. split; [exact S1|]. intros t' r D. apply K.
    cbn [size_told]. rewrite A1, A2. replace (Z.min (n - 1) (2 ^ 32 - 1) + 1) with n by lia. exact D.
Qed.
Lemma capacity10_does : forall padded t next, exists t1, same t t1 /\
  forall t' r, does tgt padded t1 (next (Z.min n (2 ^ 32)) bs) t' r -> does tgt padded t (with_capacity10 next) t' r.
Proof.
  intros padded t next. unfold with_capacity10. destruct (ten_ask padded t (size_told next)) as (t1 & v & S1 & A1 & A2 & K).
  exists t1. split; [exact S1|]. intros t' r D. apply K. cbn [size_told]. rewrite A1, A2.
  replace (Z.min (n - 1) (2 ^ 32 - 1) + 1) with (Z.min n (2 ^ 32)) by lia. exact D.
Qed.
End Capacity.

(** * Reading *)

Section Reading.
Context {T : Type} (tgt : target T) (content : T -> Z -> bytes) (bs n : Z) (bad : Z -> bool) (sense : bytes).
Hypothesis D : flawed_disk tgt content bs n bad sense.
Hypothesis B : 1 <= bs < 2 ^ 32.

Lemma ordinary_rejection : conforming_sense sense -> ordinary (rejection sense).
Proof. intro S. split; [reflexivity|]. split; [exact S|]. right. left. split; reflexivity. Qed.

Lemma disk_read : forall padded rd lba m t next, read_of rd lba m bs -> proper rd -> arguments_fit rd -> 0 <= lba -> 1 <= m -> lba + m <= n ->
  m * bs < 2 ^ 32 -> exists t1, (forall k, 0 <= k < n -> content t1 k = content t k) /\
  forall t' r, does tgt padded t1 (next (if bad_in bad lba m then Err (EAsiCheckCondition (pad 255 sense))
                                         else Ok (PBytes (blocks (content t) lba (Z.to_nat m))))) t' r ->
    does tgt padded t (Do rd next) t' r.
Proof.
  intros padded rd lba m t next R P F L M C Sm.
  destruct (read_issue rd lba m bs ltac:(lia) R P F) as (o & cdb & f & Co & Q & I & Pr & _).
  destruct D as [Z1 S RD]. destruct (RD t cdb [] lba m f I Pr ltac:(lia) ltac:(lia) ltac:(lia)) as (t1 & E & K).
  exists t1. split; [exact K|]. intros t' r H.
  assert (J : issued rd = Ok (ReadCmd cdb (m * bs))) by (unfold issued; rewrite Co; exact Q).
  eapply (does_seen _ _ _ _ _ _ (ReadCmd cdb (m * bs))); [exact P|exact J|cbn; nia|exact E| |reflexivity|].
  - destruct (bad_in bad lba m); [apply ordinary_rejection; exact S|apply ordinary_good].
  - destruct (bad_in bad lba m); [exact H|].
    pose proof (DiskFacts.blocks_length bs n (Z.to_nat m) (content t) lba ltac:(lia) ltac:(lia) (Z1 t)) as ZL.
    rewrite Z2Nat.id in ZL by lia. rewrite <- ZL. rewrite full_seen by (rewrite ZL; auto; nia).
    rewrite Co. unfold yields. cbn [bind]. rewrite (read_finish _ _ _ _ _ R Co). exact H.
Qed.
End Reading.

Lemma never_bad : forall lba n, bad_in (fun _ => false) lba n = false.
Proof. intros lba n. unfold bad_in. induction (seq 0 (Z.to_nat n)); auto. Qed.

(** A disk without unreadable blocks. *)
Lemma flawless : forall T (tgt : target T) content bs n, block_device tgt content bs n ->
  flawed_disk tgt content bs n (fun _ => false) [].
Proof.
  intros T tgt content bs n [Z1 RD _]. constructor; auto.
  - split; [constructor|]. intro H. reflexivity.
  - intros. rewrite never_bad. eauto.
Qed.

Section Dump.
Context {T : Type} (tgt : target T) (content : T -> Z -> bytes) (bs n : Z) (bad : Z -> bool) (sense more : bytes).
Hypothesis D : flawed_disk tgt content bs n bad sense.
Hypothesis R : reports_capacity tgt content bs n more.
Hypothesis B : 1 <= bs < 2 ^ 32.
Hypothesis N : 1 <= n <= 2 ^ 64.
Context (rd : reader) (chunk : Z).
Hypothesis Rd : reads_up_to rd bs n chunk.
Hypothesis C : 1 <= chunk.
Hypothesis Sm : chunk * bs < 2 ^ 32.

Lemma piece_read : forall padded lba m t next, 0 <= lba -> 1 <= m <= chunk -> lba + m <= n ->
  exists t1, (forall k, 0 <= k < n -> content t1 k = content t k) /\
  forall t' r, does tgt padded t1 (next (if bad_in bad lba m then Err (EAsiCheckCondition (pad 255 sense))
                                         else Ok (PBytes (blocks (content t) lba (Z.to_nat m))))) t' r ->
    does tgt padded t (Do (rd lba m bs) next) t' r.
Proof.
  intros padded lba m t next L M Cp. destruct (Rd lba m L M Cp) as (R1 & P1 & F1).
  apply (disk_read tgt content bs n bad sense D B padded (rd lba m bs)); auto; nia.
Qed.

(** No block of the first [q] is unreadable. *)
Lemma dump_pieces : forall padded q t, 1 <= q <= n -> (forall k, 0 <= k < q -> bad k = false) ->
  exists t', does tgt padded t (each (reading rd bs) (extents 0 q chunk) []) t' (Ok (PBytes (blocks (content t) 0 (Z.to_nat q)))) /\
    forall k, 0 <= k < n -> content t' k = content t k.
Proof.
  intros padded q t Q Hb.
  rewrite <- (extents_blocks 0 q chunk ltac:(lia) C (content t)).
  apply (each_does T tgt padded (fun t' => forall k, 0 <= k < n -> content t' k = content t k) (reading rd bs)
           (fun e => blocks (content t) (fst e) (Z.to_nat (snd e))) (extents 0 q chunk)); [|auto].
  intros [lba m] t0 I K. destruct (extent_ok 0 q chunk ltac:(lia) C _ I) as (L & M & Cp). cbn [fst snd] in *.
  destruct (piece_read padded lba m t0 finish ltac:(lia) M ltac:(lia)) as (t1 & S1 & K1).
  exists t1. split; [|intros k Lk; rewrite S1; auto]. apply K1.
  replace (bad_in bad lba m) with false.
  - rewrite <- (blocks_ext n (Z.to_nat m) (content t0) (content t) lba ltac:(lia) ltac:(lia) K). apply does_finish.
  - symmetry. apply not_true_is_false. intro X. unfold bad_in in X. apply existsb_exists in X. destruct X as (i & Ii & X).
    apply in_seq in Ii. rewrite Hb in X by lia. discriminate.
Qed.

Lemma salvage_piece1 : forall padded t e, In e (extents 0 n 1) ->
  exists t1, does tgt padded t (salvaging1 rd bs e) t1 (Ok (PBytes (blocks (salvaged bad bs (content t)) (fst e) (Z.to_nat (snd e))))) /\
    forall k, 0 <= k < n -> content t1 k = content t k.
Proof.
  intros padded t [lba m] I. destruct (extent_ok 0 n 1 ltac:(lia) ltac:(lia) _ I) as (L & M & Cp). cbn [fst snd] in *.
  assert (m = 1) as -> by lia. unfold salvaging1. cbn [fst snd].
  match goal with |- context [Do (rd lba 1 bs) ?f] => destruct (piece_read padded lba 1 t f ltac:(lia) ltac:(lia) ltac:(lia)) as (t1 & S1 & K1) end.
  exists t1. split; [|exact S1]. apply K1. unfold bad_in. change (Z.to_nat 1) with 1%nat. cbn [seq existsb blocks]. rewrite orb_false_r, Z.add_0_r.
  unfold salvaged. destruct (bad lba); cbn beta iota; rewrite !app_nil_r; [constructor|apply does_finish].
Qed.

Lemma single_in : forall lba m e, 0 <= lba -> 0 <= m -> lba + m <= n -> In e (extents lba m 1) -> In e (extents 0 n 1).
Proof.
  intros lba m e L M Cp I. unfold extents in *. apply in_map_iff in I. destruct I as (i & <- & I). apply in_map_iff.
  apply in_seq in I. rewrite Z.add_simpl_r, Z.div_1_r in *. exists (Z.to_nat lba + i)%nat. split; [f_equal; lia|]. apply in_seq. lia.
Qed.

Lemma salvaged_ext : forall c1 c2 lba m, 0 <= lba -> lba + Z.of_nat m <= n -> (forall k, 0 <= k < n -> c1 k = c2 k) ->
  blocks (salvaged bad bs c1) lba m = blocks (salvaged bad bs c2) lba m.
Proof.
  intros c1 c2 lba m L Cp H. apply (blocks_ext n); auto. intros k K. unfold salvaged. destruct (bad k); auto.
Qed.

Lemma salvage_pieces : forall padded t,
  exists t', does tgt padded t (each (salvaging rd bs) (extents 0 n chunk) []) t' (Ok (PBytes (blocks (salvaged bad bs (content t)) 0 (Z.to_nat n)))) /\
    forall k, 0 <= k < n -> content t' k = content t k.
Proof.
  intros padded t. rewrite <- (extents_blocks 0 n chunk ltac:(lia) C (salvaged bad bs (content t))).
  apply (each_does T tgt padded (fun t' => forall k, 0 <= k < n -> content t' k = content t k) (salvaging rd bs)
           (fun e => blocks (salvaged bad bs (content t)) (fst e) (Z.to_nat (snd e))) (extents 0 n chunk)); [|auto].
  intros [lba m] t0 I K. destruct (extent_ok 0 n chunk ltac:(lia) C _ I) as (L & M & Cp). unfold salvaging. cbn [fst snd] in *.
  match goal with |- context [Do (rd lba m bs) ?f] => destruct (piece_read padded lba m t0 f ltac:(lia) M ltac:(lia)) as (t1 & S1 & K1) end.
  assert (K' : forall k, 0 <= k < n -> content t1 k = content t k) by (intros k Lk; rewrite S1; auto).
  destruct (bad_in bad lba m) eqn:Eb.
  - destruct (each_does T tgt padded (fun t' => forall k, 0 <= k < n -> content t' k = content t k) (salvaging1 rd bs)
           (fun e => blocks (salvaged bad bs (content t)) (fst e) (Z.to_nat (snd e))) (extents lba m 1)) with (t := t1) (acc := @nil Z) as (t2 & D2 & S2).
    + intros e t3 I3 K3. pose proof (single_in lba m e ltac:(lia) ltac:(lia) ltac:(lia) I3) as I4.
      destruct (salvage_piece1 padded t3 e I4) as (t4 & D4 & S4). exists t4.
      destruct (extent_ok 0 n 1 ltac:(lia) ltac:(lia) _ I4) as (L4 & M4 & C4).
      rewrite (salvaged_ext (content t3) (content t)) in D4 by (auto; lia).
      split; [exact D4|]. intros k Lk. rewrite S4; auto.
    + exact K'.
    + exists t2. split; [|exact S2]. apply K1. cbn beta iota.
      rewrite (extents_blocks lba m 1 ltac:(lia) ltac:(lia)) in D2. exact D2.
  - exists t1. split; [|exact K']. apply K1. cbn beta iota.
    replace (blocks (salvaged bad bs (content t)) lba (Z.to_nat m)) with (blocks (content t0) lba (Z.to_nat m)); [apply does_finish|].
    rewrite (blocks_ext n (Z.to_nat m) (content t0) (content t) lba ltac:(lia) ltac:(lia) K).
    assert (G : forall k, lba <= k < lba + m -> bad k = false).
    { intros k Lk. apply not_true_is_false. intro X. rewrite <- not_true_iff_false in Eb. apply Eb. unfold bad_in. apply existsb_exists.
      exists (Z.to_nat (k - lba)). split; [apply in_seq; lia|]. rewrite Z2Nat.id by lia. replace (lba + (k - lba)) with k by lia. exact X. }
    assert (E2 : forall q l, lba <= l -> l + Z.of_nat q <= lba + m -> blocks (content t) l q = blocks (salvaged bad bs (content t)) l q).
    { induction q as [|q IH]; intros l L1 L2; cbn [blocks]; [reflexivity|]. rewrite IH by lia. unfold salvaged at 2. rewrite G by lia. reflexivity. }
    apply E2; lia.
Qed.

Lemma dump_does : forall padded t, (forall k, 0 <= k < n -> bad k = false) -> exists t',
  does tgt padded t (dump rd chunk) t' (Ok (PBytes (blocks (content t) 0 (Z.to_nat n)))) /\
  forall k, 0 <= k < n -> content t' k = content t k.
Proof.
  intros padded t Hb.
  destruct (capacity_does tgt content bs n more R B N padded t (fun n bs => each (reading rd bs) (extents 0 n chunk) [])) as (t1 & S1 & K).
  destruct (dump_pieces padded n t1 ltac:(lia) Hb) as (t2 & D2 & S2). exists t2. split.
  - apply K. rewrite <- (blocks_ext n (Z.to_nat n) (content t1) (content t) 0 ltac:(lia) ltac:(lia) S1). exact D2.
  - intros k Lk. rewrite S2; auto.
Qed.
Lemma dump10_does : forall padded t, (forall k, 0 <= k < n -> bad k = false) -> exists t',
  does tgt padded t (dump10 rd chunk) t' (Ok (PBytes (blocks (content t) 0 (Z.to_nat (Z.min n (2 ^ 32)))))) /\
  forall k, 0 <= k < n -> content t' k = content t k.
Proof.
  intros padded t Hb.
  destruct (capacity10_does tgt content bs n more R B N padded t (fun n bs => each (reading rd bs) (extents 0 n chunk) [])) as (t1 & S1 & K).
  destruct (dump_pieces padded (Z.min n (2 ^ 32)) t1 ltac:(lia) ltac:(intros; apply Hb; lia)) as (t2 & D2 & S2). exists t2. split.
  - apply K. rewrite <- (blocks_ext n (Z.to_nat (Z.min n (2 ^ 32))) (content t1) (content t) 0 ltac:(lia) ltac:(lia) S1). exact D2.
  - intros k Lk. rewrite S2; auto.
Qed.
Lemma dump_unreadable : forall padded t k0, 0 <= k0 < n -> bad k0 = true -> exists t',
  does tgt padded t (dump rd chunk) t' (Err (EAsiCheckCondition (pad 255 sense))) /\
  forall k, 0 <= k < n -> content t' k = content t k.
Proof.
  intros padded t k0 K0 Hb.
  destruct (capacity_does tgt content bs n more R B N padded t (fun n bs => each (reading rd bs) (extents 0 n chunk) [])) as (t1 & S1 & K).
  destruct (first_such _ (fun e => bad_in bad (fst e) (snd e)) (extents 0 n chunk)) as (l1 & [lba m] & l2 & El & Eb & F1).
  { destruct (extent_of 0 n chunk ltac:(lia) C k0 ltac:(lia)) as (e & Ie & Le). apply existsb_exists. exists e. split; [exact Ie|].
    unfold bad_in. apply existsb_exists. exists (Z.to_nat (k0 - fst e)). split; [apply in_seq; lia|].
    rewrite Z2Nat.id by lia. replace (fst e + (k0 - fst e)) with k0 by lia. exact Hb. }
  assert (Ok1 : forall e, In e (l1 ++ (lba, m) :: l2) -> 0 <= fst e /\ 1 <= snd e <= chunk /\ fst e + snd e <= n)
    by (rewrite <- El; apply (extent_ok 0 n chunk); lia).
  destruct (each_fails T tgt padded (fun t' => forall k, 0 <= k < n -> content t' k = content t k) (reading rd bs)
           (fun e => blocks (content t) (fst e) (Z.to_nat (snd e))) (EAsiCheckCondition (pad 255 sense)) l1 (lba, m) l2) with (t := t1) (acc := @nil Z)
    as (t2 & D2 & S2); auto.
  - intros e t0 I Kt. destruct (Ok1 e ltac:(apply in_or_app; auto)) as (L & M & Cp).
    destruct (piece_read padded (fst e) (snd e) t0 finish ltac:(lia) M ltac:(lia)) as (t3 & S3 & K3).
    exists t3. split; [|intros k Lk; rewrite S3; auto]. apply K3. rewrite (F1 e I).
    rewrite <- (blocks_ext n (Z.to_nat (snd e)) (content t0) (content t) (fst e) ltac:(lia) ltac:(lia) Kt). apply does_finish.
  - intros t0 Kt. destruct (Ok1 (lba, m) ltac:(apply in_or_app; right; left; reflexivity)) as (L & M & Cp). cbn [fst snd] in *.
    destruct (piece_read padded lba m t0 finish ltac:(lia) M ltac:(lia)) as (t3 & S3 & K3).
    exists t3. split; [|intros k Lk; rewrite S3; auto]. apply K3. rewrite Eb. apply does_finish.
  - exists t2. split; [|exact S2]. apply K. rewrite El. exact D2.
Qed.
Lemma salvage_does : forall padded t, exists t',
  does tgt padded t (salvage rd chunk) t' (Ok (PBytes (blocks (salvaged bad bs (content t)) 0 (Z.to_nat n)))) /\
  forall k, 0 <= k < n -> content t' k = content t k.
Proof.
  intros padded t.
  destruct (capacity_does tgt content bs n more R B N padded t (fun n bs => each (salvaging rd bs) (extents 0 n chunk) [])) as (t1 & S1 & K).
  destruct (salvage_pieces padded t1) as (t2 & D2 & S2). exists t2. split.
  - apply K. rewrite <- (salvaged_ext (content t1) (content t) 0 (Z.to_nat n) ltac:(lia) ltac:(lia) S1). exact D2.
  - intros k Lk. rewrite S2; auto.
Qed.
End Dump.

(** READ(10) cannot address the blocks from 2^32 on. *)
Section Ten.
Context {T : Type} (tgt : target T) (content : T -> Z -> bytes) (bs n : Z) (more : bytes).
Hypothesis D : block_device tgt content bs n.
Hypothesis R : reports_capacity tgt content bs n more.
Hypothesis B : 1 <= bs < 2 ^ 32.
Hypothesis N : 1 <= n <= 2 ^ 64.
Context (chunk : Z).
Hypothesis C : 1 <= chunk < 2 ^ 16.
Hypothesis Sm : chunk * bs < 2 ^ 32.

Lemma ten_fits : forall lba m, 0 <= lba -> 1 <= m <= chunk -> lba < 2 ^ 32 ->
  read_of (Read10 lba m bs []) lba m bs /\ proper (Read10 lba m bs []) /\ arguments_fit (Read10 lba m bs []).
Proof.
  intros lba m L M Lt. split; [cbn; auto|]. split; [cbn; repeat split; try lia; constructor|].
  cbn [arguments_fit]. repeat split; try lia. repeat constructor; cbn; lia.
Qed.

Lemma ten_refused : forall padded t, 2 ^ 32 + chunk <= n -> exists t',
  does tgt padded t (dump (fun lba m bs => Read10 lba m bs []) chunk) t' (Err EAssertion) /\
  forall k, 0 <= k < n -> content t' k = content t k.
Proof.
  intros padded t Big. set (rd := fun lba m bs => Read10 lba m bs []).
  destruct (capacity_does tgt content bs n more R B N padded t (fun n bs => each (reading rd bs) (extents 0 n chunk) [])) as (t1 & S1 & K).
  destruct (first_such _ (fun e => 2 ^ 32 <=? fst e) (extents 0 n chunk)) as (l1 & [lba m] & l2 & El & Eb & F1).
  { destruct (extent_of 0 n chunk ltac:(lia) ltac:(lia) (n - 1) ltac:(lia)) as (e & Ie & Le). apply existsb_exists. exists e. split; [exact Ie|].
    destruct (extent_ok 0 n chunk ltac:(lia) ltac:(lia) e Ie) as (L & M & Cp). apply Z.leb_le. lia. }
  cbn [fst] in Eb. apply Z.leb_le in Eb.
  assert (Ok1 : forall e, In e (l1 ++ (lba, m) :: l2) -> 0 <= fst e /\ 1 <= snd e <= chunk /\ fst e + snd e <= n)
    by (rewrite <- El; apply (extent_ok 0 n chunk); lia).
  destruct (Ok1 (lba, m) ltac:(apply in_or_app; right; left; reflexivity)) as (L0 & M0 & C0). cbn [fst snd] in *.
  assert (J : issued (Read10 lba m bs []) = Err EAssertion).
  { unfold issued. cbn [constructed]. unfold read10, assert_. rewrite (proj2 (Z.ltb_ge lba (2 ^ 32)) Eb). reflexivity. }
  destruct (each_fails T tgt padded (fun t' => forall k, 0 <= k < n -> content t' k = content t k) (reading rd bs)
           (fun e => blocks (content t) (fst e) (Z.to_nat (snd e))) EAssertion l1 (lba, m) l2) with (t := t1) (acc := @nil Z)
    as (t2 & D2 & S2); auto.
  - intros e t0 I Kt. destruct (Ok1 e ltac:(apply in_or_app; auto)) as (L & M & Cp).
    pose proof (F1 e I) as Lt. apply Z.leb_gt in Lt. destruct (ten_fits (fst e) (snd e) L M Lt) as (R1 & P1 & A1).
    destruct (disk_read tgt content bs n _ _ (flawless _ _ _ _ _ D) B padded (rd (fst e) (snd e) bs) (fst e) (snd e) t0 finish R1 P1 A1)
      as (t3 & S3 & K3); try nia.
    exists t3. split; [|intros k Lk; rewrite S3; auto]. apply K3. rewrite never_bad.
    rewrite <- (blocks_ext n (Z.to_nat (snd e)) (content t0) (content t) (fst e) ltac:(lia) ltac:(lia) Kt). apply does_finish.
  - intros t0 Kt. exists t0. split; [|exact Kt]. unfold reading. eapply does_refused; [exact J|]. apply does_finish.
  - exists t2. split; [|exact S2]. apply K. rewrite El. exact D2.
Qed.
End Ten.

(** * Writing *)

Lemma slice_slice : forall a b c d l, (d <= b - a)%nat -> slice c d (slice a b l) = slice (a + c) (a + d) l.
Proof.
  intros a b c d l L. unfold slice. rewrite skipn_firstn_comm, firstn_firstn, <- skipn_plus.
  f_equal; [lia|]. f_equal. lia.
Qed.

Section Restore.
Context {T : Type} (tgt : target T) (content : T -> Z -> bytes) (bs n : Z) (more : bytes).
Hypothesis D : block_device tgt content bs n.
Hypothesis R : reports_capacity tgt content bs n more.
Hypothesis B : 1 <= bs < 2 ^ 32.
Hypothesis N : 1 <= n <= 2 ^ 64.
Context (wr : writer) (chunk : Z).
Hypothesis Wr : writes_up_to wr bs n chunk.
Hypothesis C : 1 <= chunk.
Hypothesis Sm : chunk * bs < 2 ^ 32.
Context (data : bytes) (m : Z).
Hypothesis Zd : zlen data = m * bs.
Hypothesis M : 0 <= m <= n.

Lemma piece_write : forall padded lba q t next, 0 <= lba -> 1 <= q <= chunk -> lba + q <= m ->
  exists t1, (forall k, 0 <= k < n -> content t1 k = written bs lba q (slice (Z.to_nat (lba * bs)) (Z.to_nat ((lba + q) * bs)) data) (content t) k) /\
  forall t' r, does tgt padded t1 (next (Ok PNone)) t' r ->
    does tgt padded t (Do (wr lba (slice (Z.to_nat (lba * bs)) (Z.to_nat ((lba + q) * bs)) data) bs) next) t' r.
Proof.
  intros padded lba q t next L Q Cp. set (d := slice _ _ data).
  assert (Zl : zlen d = q * bs).
  { unfold d, zlen in *. rewrite BaseFacts.slice_length by nia. nia. }
  destruct (Wr lba q d L Q ltac:(lia) Zl) as (W1 & P1 & F1).
  destruct (write_issue _ lba d bs ltac:(lia) W1 P1 F1) as (o & cdb & f & Co & Qo & I & Pr & _).
  rewrite Zl, Z.div_mul in I by lia.
  destruct D as [_ _ WR]. destruct (WR t cdb d lba q f I Pr L ltac:(lia) ltac:(lia) Zl) as (t1 & E & K).
  exists t1. split; [exact K|]. intros t' r H.
  assert (J : issued (wr lba d bs) = Ok (WriteCmd cdb d)) by (unfold issued; rewrite Co; exact Qo).
  eapply (does_seen _ _ _ _ _ _ (WriteCmd cdb d)); [exact P1|exact J|unfold moderate; nia|exact E|apply ordinary_good| |exact H].
  apply write_seen; [|exact J]. intros o' C'. eapply write_finish; eauto.
Qed.

Lemma grown : forall c0 lba q k, 0 <= lba -> 0 <= q -> lba + q <= m -> 0 <= k < n ->
  written bs lba q (slice (Z.to_nat (lba * bs)) (Z.to_nat ((lba + q) * bs)) data) (written bs 0 lba data c0) k = written bs 0 (lba + q) data c0 k.
Proof.
  intros c0 lba q k L Q Cp K. unfold written at 1. destruct ((lba <=? k) && (k <? lba + q)) eqn:E.
  - apply andb_true_iff in E. rewrite Z.leb_le, Z.ltb_lt in E. unfold written.
    replace ((0 <=? k) && (k <? 0 + (lba + q))) with true by (symmetry; rewrite andb_true_iff, Z.leb_le, Z.ltb_lt; lia).
    assert (P : 0 <= (k - lba) * bs) by nia. assert (P0 : 0 <= lba * bs) by nia.
    assert (P1 : (k - lba) * bs + bs <= (lba + q) * bs - lba * bs) by nia.
    rewrite slice_slice by lia. rewrite <- !Z2Nat.inj_add by lia. f_equal; f_equal; lia.
  - unfold written. rewrite andb_false_iff, Z.leb_gt, Z.ltb_ge in E.
    destruct (Z.ltb_spec k lba).
    + replace ((0 <=? k) && (k <? 0 + lba)) with true by (symmetry; rewrite andb_true_iff, Z.leb_le, Z.ltb_lt; lia).
      replace ((0 <=? k) && (k <? 0 + (lba + q))) with true by (symmetry; rewrite andb_true_iff, Z.leb_le, Z.ltb_lt; lia). reflexivity.
    + replace ((0 <=? k) && (k <? 0 + lba)) with false by (symmetry; rewrite andb_false_iff, Z.leb_gt, Z.ltb_ge; lia).
      replace ((0 <=? k) && (k <? 0 + (lba + q))) with false by (symmetry; rewrite andb_false_iff, Z.leb_gt, Z.ltb_ge; lia). reflexivity.
Qed.

Let piece (i : nat) := (0 + chunk * Z.of_nat i, Z.min chunk (m - chunk * Z.of_nat i)).

Lemma store_pieces : forall padded c0 j i t, (i + j = Z.to_nat ((m + chunk - 1) / chunk))%nat ->
  (forall k, 0 <= k < n -> content t k = written bs 0 (Z.min m (chunk * Z.of_nat i)) data c0 k) ->
  exists t', does tgt padded t (storing wr bs data (map piece (seq i j))) t' (Ok PNone) /\
    forall k, 0 <= k < n -> content t' k = written bs 0 m data c0 k.
Proof.
  intros padded c0 j. pose proof (count_enough 0 m chunk ltac:(lia) C) as Ce.
  induction j as [|j IH]; intros i t E K.
  - exists t. split; [constructor|]. intros k Lk. rewrite K by auto. f_equal. nia.
  - cbn [seq map]. unfold piece at 1. cbn [storing].
    match goal with |- context [Do _ ?f] =>
      destruct (piece_write padded (0 + chunk * Z.of_nat i) (Z.min chunk (m - chunk * Z.of_nat i)) t f ltac:(lia) ltac:(nia) ltac:(nia)) as (t1 & S1 & K1) end.
    destruct (IH (Datatypes.S i) t1 ltac:(lia)) as (t2 & D2 & S2).
    + intros k Lk. rewrite S1 by auto.
      rewrite (DiskFacts.written_ext bs _ _ _ (content t) (written bs 0 (0 + chunk * Z.of_nat i) data c0)).
      * rewrite grown by nia. f_equal. nia.
      * rewrite K by auto. f_equal. nia.
    + exists t2. split; [apply K1; exact D2|exact S2].
Qed.

Lemma restore_does : forall padded t, exists t', does tgt padded t (restore wr chunk data) t' (Ok PNone) /\
  forall k, 0 <= k < n -> content t' k = written bs 0 m data (content t) k.
Proof.
  intros padded t.
  destruct (capacity_does tgt content bs n more R B N padded t
    (fun n bs => if n * bs <? zlen data then Fail EValue else storing wr bs data (extents 0 (zlen data / bs) chunk))) as (t1 & S1 & K).
  destruct (store_pieces padded (content t) (Z.to_nat ((m + chunk - 1) / chunk)) 0%nat t1 eq_refl) as (t2 & D2 & S2).
  - intros k Lk. rewrite S1 by auto. unfold written.
    replace ((0 <=? k) && (k <? 0 + Z.min m (chunk * Z.of_nat 0))) with false by (symmetry; rewrite andb_false_iff, Z.leb_gt, Z.ltb_ge; lia).
    reflexivity.
  - exists t2. split; [|exact S2]. apply K. rewrite Zd, Z.div_mul by lia.
    replace (n * bs <? m * bs) with false by (symmetry; apply Z.ltb_ge; nia). exact D2.
Qed.
End Restore.

Lemma restore_refused : forall T (tgt : target T) content bs n more, reports_capacity tgt content bs n more -> 1 <= bs < 2 ^ 32 -> 1 <= n <= 2 ^ 64 ->
  forall wr chunk data padded t, n * bs < zlen data -> exists t', does tgt padded t (restore wr chunk data) t' (Err EValue) /\
    forall k, 0 <= k < n -> content t' k = content t k.
Proof.
  intros T tgt content bs n more R B N wr chunk data padded t L.
  destruct (capacity_does tgt content bs n more R B N padded t
    (fun n bs => if n * bs <? zlen data then Fail EValue else storing wr bs data (extents 0 (zlen data / bs) chunk))) as (t1 & S1 & K).
  exists t1. split; [|exact S1]. apply K. rewrite (proj2 (Z.ltb_lt _ _) L). constructor.
Qed.

(** * From one disk to another *)

Lemma block_slice : forall bs n c k, 1 <= bs -> (forall k, 0 <= k < n -> zlen (c k) = bs) -> 0 <= k < n ->
  slice (Z.to_nat (k * bs)) (Z.to_nat (k * bs + bs)) (blocks c 0 (Z.to_nat n)) = c k.
Proof.
  intros bs n c k B Zc K.
  assert (E : Z.to_nat n = (Z.to_nat k + (1 + Z.to_nat (n - k - 1)))%nat) by lia.
  rewrite E, blocks_app, Z2Nat.id by lia. cbn [Nat.add blocks]. rewrite Z.add_0_l.
  assert (L : length (blocks c 0 (Z.to_nat k)) = Z.to_nat (k * bs)).
  { pose proof (DiskFacts.blocks_length bs n (Z.to_nat k) c 0 ltac:(lia) ltac:(lia) Zc) as X. unfold zlen in X. rewrite Z2Nat.id in X by lia. lia. }
  rewrite Z2Nat.inj_add by nia. rewrite slice_right by exact L.
  assert (Lk : length (c k) = Z.to_nat bs) by (pose proof (Zc k K) as X; unfold zlen in X; lia).
  rewrite firstn_app, Lk, Nat.sub_diag, firstn_O, <- Lk, firstn_all. apply app_nil_r.
Qed.

(** * On the four systems *)

Section Runs.
Context {T : Type} (sys : system T) (tgt : target T) (content : T -> Z -> bytes) (bs n : Z) (more : bytes).
Hypothesis F : one_of_four sys.
Hypothesis R : reports_capacity tgt content bs n more.
Hypothesis B : 1 <= bs < 2 ^ 32.
Hypothesis N : 1 <= n <= 2 ^ 64.

Lemma runs : forall p r (same : T -> Prop) s t, idle sys s t -> (exists t', does tgt (pads sys) t p t' r /\ same t') ->
  exists s' t', sync_wait_ends (coroutine (os_of sys tgt) p) s s' (shown r) /\ idle sys s' t' /\ same t'.
Proof.
  intros p r same s t Hi (t' & Hd & K). destruct (adaptive T sys tgt t p t' r s F Hd Hi) as (s' & E & I). eauto.
Qed.

Lemma dump_runs : forall rd chunk s t, idle sys s t -> block_device tgt content bs n -> reads_up_to rd bs n chunk ->
  1 <= chunk -> chunk * bs < 2 ^ 32 ->
  exists s' t', sync_wait_ends (coroutine (os_of sys tgt) (dump rd chunk)) s s' (shown (Ok (PBytes (blocks (content t) 0 (Z.to_nat n))))) /\
    idle sys s' t' /\ forall k, 0 <= k < n -> content t' k = content t k.
Proof.
  intros rd chunk s t Hi D Rd C Sm. apply runs with (t := t); auto.
  eapply (dump_does tgt content bs n (fun _ => false)); eauto using flawless.
Qed.
Lemma dump10_runs : forall rd chunk s t, idle sys s t -> block_device tgt content bs n -> reads_up_to rd bs n chunk ->
  1 <= chunk -> chunk * bs < 2 ^ 32 ->
  exists s' t', sync_wait_ends (coroutine (os_of sys tgt) (dump10 rd chunk)) s s'
      (shown (Ok (PBytes (blocks (content t) 0 (Z.to_nat (Z.min n (2 ^ 32))))))) /\
    idle sys s' t' /\ forall k, 0 <= k < n -> content t' k = content t k.
Proof.
  intros rd chunk s t Hi D Rd C Sm. apply runs with (t := t); auto.
  eapply (dump10_does tgt content bs n (fun _ => false)); eauto using flawless.
Qed.
Lemma unreadable_runs : forall bad sense rd chunk k0 s t, idle sys s t -> flawed_disk tgt content bs n bad sense -> reads_up_to rd bs n chunk ->
  1 <= chunk -> chunk * bs < 2 ^ 32 -> 0 <= k0 < n -> bad k0 = true ->
  exists s' t', sync_wait_ends (coroutine (os_of sys tgt) (dump rd chunk)) s s' (shown (Err (EAsiCheckCondition (pad 255 sense)))) /\
    idle sys s' t' /\ forall k, 0 <= k < n -> content t' k = content t k.
Proof.
  intros bad sense rd chunk k0 s t Hi D Rd C Sm K0 Hb. apply runs with (t := t); auto. eapply dump_unreadable; eauto.
Qed.
Lemma salvage_runs : forall bad sense rd chunk s t, idle sys s t -> flawed_disk tgt content bs n bad sense -> reads_up_to rd bs n chunk ->
  1 <= chunk -> chunk * bs < 2 ^ 32 ->
  exists s' t', sync_wait_ends (coroutine (os_of sys tgt) (salvage rd chunk)) s s'
      (shown (Ok (PBytes (blocks (salvaged bad bs (content t)) 0 (Z.to_nat n))))) /\
    idle sys s' t' /\ forall k, 0 <= k < n -> content t' k = content t k.
Proof. intros bad sense rd chunk s t Hi D Rd C Sm. apply runs with (t := t); auto. eapply salvage_does; eauto. Qed.
Lemma ten_runs : forall chunk s t, idle sys s t -> block_device tgt content bs n -> 1 <= chunk < 2 ^ 16 -> chunk * bs < 2 ^ 32 -> 2 ^ 32 + chunk <= n ->
  exists s' t', sync_wait_ends (coroutine (os_of sys tgt) (dump (fun lba m bs => Read10 lba m bs []) chunk)) s s' (Threw EAssertion) /\
    idle sys s' t' /\ forall k, 0 <= k < n -> content t' k = content t k.
Proof. intros chunk s t Hi D C Sm Big. apply (runs _ (Err EAssertion) _ s t Hi). eapply ten_refused; eauto. Qed.
Lemma restore_runs : forall wr chunk data m s t, idle sys s t -> block_device tgt content bs n -> writes_up_to wr bs n chunk ->
  1 <= chunk -> chunk * bs < 2 ^ 32 -> zlen data = m * bs -> 0 <= m <= n ->
  exists s' t', sync_wait_ends (coroutine (os_of sys tgt) (restore wr chunk data)) s s' (shown (Ok PNone)) /\
    idle sys s' t' /\ forall k, 0 <= k < n -> content t' k = written bs 0 m data (content t) k.
Proof. intros wr chunk data m s t Hi D Wr C Sm Zd M. apply runs with (t := t); auto. eapply restore_does; eauto. Qed.
Lemma too_large_runs : forall wr chunk data s t, idle sys s t -> n * bs < zlen data ->
  exists s' t', sync_wait_ends (coroutine (os_of sys tgt) (restore wr chunk data)) s s' (Threw EValue) /\
    idle sys s' t' /\ forall k, 0 <= k < n -> content t' k = content t k.
Proof. intros wr chunk data s t Hi L. apply (runs _ (Err EValue) _ s t Hi). eapply restore_refused; eauto. Qed.
End Runs.

Lemma clone_runs : forall T1 T2 (sys1 : system T1) (sys2 : system T2) tgt1 tgt2 content1 content2 bs n1 n2 more1 more2 rd wr chunk1 chunk2 s1 s2 t1 t2,
  one_of_four sys1 -> one_of_four sys2 -> idle sys1 s1 t1 -> idle sys2 s2 t2 ->
  block_device tgt1 content1 bs n1 -> block_device tgt2 content2 bs n2 -> reports_capacity tgt1 content1 bs n1 more1 ->
  reports_capacity tgt2 content2 bs n2 more2 -> 1 <= bs < 2 ^ 32 -> 1 <= n1 <= n2 -> n2 <= 2 ^ 64 ->
  reads_up_to rd bs n1 chunk1 -> writes_up_to wr bs n2 chunk2 -> 1 <= chunk1 -> 1 <= chunk2 -> chunk1 * bs < 2 ^ 32 -> chunk2 * bs < 2 ^ 32 ->
  exists data s1' t1' s2' t2',
    sync_wait_ends (coroutine (os_of sys1 tgt1) (dump rd chunk1)) s1 s1' (shown (Ok (PBytes data))) /\ idle sys1 s1' t1' /\
    sync_wait_ends (coroutine (os_of sys2 tgt2) (restore wr chunk2 data)) s2 s2' (shown (Ok PNone)) /\ idle sys2 s2' t2' /\
    forall k, (0 <= k < n1 -> content1 t1' k = content1 t1 k /\ content2 t2' k = content1 t1 k) /\
              (n1 <= k < n2 -> content2 t2' k = content2 t2 k).
Proof.
  intros T1 T2 sys1 sys2 tgt1 tgt2 content1 content2 bs n1 n2 more1 more2 rd wr chunk1 chunk2 s1 s2 t1 t2 F1 F2 I1 I2 D1 D2 R1 R2 B N1 N2 Rd Wr C1 C2 S1 S2.
  destruct (dump_runs sys1 tgt1 content1 bs n1 more1 F1 R1 B ltac:(lia) rd chunk1 s1 t1 I1 D1 Rd C1 S1) as (s1' & t1' & E1 & I1' & K1).
  pose proof (DiskFacts.blocks_length bs n1 (Z.to_nat n1) (content1 t1) 0 ltac:(lia) ltac:(lia) (bd_block _ _ _ _ D1 t1)) as ZL.
  rewrite Z2Nat.id in ZL by lia.
  destruct (restore_runs sys2 tgt2 content2 bs n2 more2 F2 R2 B ltac:(lia) wr chunk2 _ n1 s2 t2 I2 D2 Wr C2 S2 ZL ltac:(lia)) as (s2' & t2' & E2 & I2' & K2).
  exists (blocks (content1 t1) 0 (Z.to_nat n1)), s1', t1', s2', t2'. do 4 (split; [assumption|]). intro k. split; intro K.
  - split; [auto|]. rewrite K2 by lia. unfold written.
    replace ((0 <=? k) && (k <? 0 + n1)) with true by (symmetry; rewrite andb_true_iff, Z.leb_le, Z.ltb_lt; lia).
    rewrite Z.sub_0_r. apply block_slice; [lia|apply (bd_block _ _ _ _ D1)|exact K].
  - rewrite K2 by lia. unfold written.
    replace ((0 <=? k) && (k <? 0 + n1)) with false by (symmetry; rewrite andb_false_iff, Z.leb_gt, Z.ltb_ge; lia). reflexivity.
Qed.

(** * Commands and a device *)

Lemma sixteen_reads : forall bs n chunk, n <= 2 ^ 64 -> chunk < 2 ^ 32 -> reads_up_to (fun lba m bs => Read16 lba m bs []) bs n chunk.
Proof.
  intros bs n chunk N C lba m L M Cp. split; [cbn; auto|]. split; [cbn; repeat split; try lia; constructor|].
  cbn [arguments_fit]. repeat split; try lia. repeat constructor; cbn; lia.
Qed.
Lemma ten_reads : forall bs n chunk, n <= 2 ^ 32 -> chunk < 2 ^ 16 -> reads_up_to (fun lba m bs => Read10 lba m bs []) bs n chunk.
Proof. intros bs n chunk N C lba m L M Cp. apply (ten_fits bs chunk); lia. Qed.
Lemma sixteen_writes : forall bs n chunk, 1 <= bs -> n <= 2 ^ 64 -> chunk < 2 ^ 32 -> writes_up_to (fun lba data bs => Write16 lba data bs []) bs n chunk.
Proof.
  intros bs n chunk B N C lba m data L M Cp Zd. split; [cbn; auto|]. split; [cbn; split; [constructor|lia]|].
  cbn [arguments_fit]. rewrite Zd, Z.mod_mul, Z.div_mul by lia. repeat split; try lia. repeat constructor; cbn; lia.
Qed.

Lemma sample_reports : forall bs n bad sense, reports_capacity (sample_disk bs n bad sense) (ram_content bs) bs n (zeros 20).
Proof.
  intros bs n bad sense. constructor.
  - split; [reflexivity|]. apply Forall_forall. intros x H. apply repeat_spec in H. subst. unfold byte_ok. lia.
  - intros t cdb data I. exists t. unfold sample_disk. rewrite I. auto.
  - intros t cdb data alloc I. exists t. unfold sample_disk. rewrite I. auto.
Qed.
Lemma sample_flawed : forall bs n bad sense, 1 <= bs -> conforming_sense sense -> flawed_disk (sample_disk bs n bad sense) (ram_content bs) bs n bad sense.
Proof.
  intros bs n bad sense B S. constructor; [|exact S|].
  - intros t k _. unfold zlen, ram_content. rewrite pad_length. lia.
  - intros t cdb data lba m f I _ _ _ _. exists t. unfold sample_disk. rewrite I. auto.
Qed.
Lemma sample_works : forall bs n sense, 1 <= bs -> block_device (sample_disk bs n (fun _ => false) sense) (ram_content bs) bs n.
Proof.
  intros bs n sense B. destruct (ram_conforms bs n B) as [Z1 RD WR]. constructor.
  - exact Z1.
  - intros t cdb data lba m f I P L M C. destruct (RD t cdb data lba m f I P L M C) as (t' & E & K).
    exists t'. unfold sample_disk, ram_disk in *. rewrite I in *. rewrite never_bad. auto.
  - intros t cdb data lba m f I P L M C Zd. destruct (WR t cdb data lba m f I P L M C Zd) as (t' & E & K).
    exists t'. unfold sample_disk, ram_disk in *. rewrite I in *. auto.
Qed.
