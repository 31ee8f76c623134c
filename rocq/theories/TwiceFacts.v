(** Facts about coroutine objects that are given to async_wait more than once. *)
From Coq Require Import String ZArith List Bool Lia PeanoNat.
From Verif Require Import CdbBlock CdbBlockFacts CdbPropFacts CdbAllFacts Base BaseFacts Gen SpecGen GenFacts SpecAsync AsyncFacts Executer SpecCall ExecFacts
  OsCommon OsAix OsWin32 SpecSg SpecDrivers SpecSession AixFacts WinFacts SessionFacts
  Instruct Command SpecDevice SpecCdb SpecExecute ExecuteFacts Sense SpecSense SpecPortable PortableFacts SpecReserve
  SpecAdaptive AdaptiveFacts SpecTwice.
Import ListNotations.
Local Open Scope list_scope.
Local Open Scope Z_scope.

(** * Objects that are all different *)
Lemma filter_all : forall A (f : A -> bool) l, Forall (fun x => f x = true) l -> filter f l = l.
Proof. intros A f l F. induction F as [|x l H F IH]; [reflexivity|]. cbn. rewrite H, IH. reflexivity. Qed.
Lemma distinct_nodup : forall l, NoDup l -> distinct l = l.
Proof.
  induction 1 as [|k l N D IH]; [reflexivity|]. cbn [distinct]. rewrite IH, filter_all; [reflexivity|].
  apply Forall_forall. intros j J. destruct (Nat.eqb_spec j k) as [->|]; [contradiction|reflexivity].
Qed.
Lemma combine_map : forall A (l : list A) d (n : nat), combine (seq n (length l)) l = map (fun k => (k, nth (k - n) l d)) (seq n (length l)).
Proof.
  induction l as [|x l IH]; intros d n; [reflexivity|]. cbn [length seq combine map]. f_equal.
  - rewrite Nat.sub_diag. reflexivity.
  - rewrite (IH d). apply map_ext_in. intros k K. apply in_seq in K. replace (k - n)%nat with (Datatypes.S (k - Datatypes.S n)) by lia. reflexivity.
Qed.
Lemma different_objects : forall S D n m choose (gs : list (gen S D)) s,
  async_wait_objects n m choose (seq 0 (length gs)) (fun k => nth k gs gen_end) s = async_wait n m choose gs s.
Proof.
  intros S D n m choose gs s. unfold async_wait_objects, async_wait, keys. rewrite distinct_nodup by apply seq_NoDup.
  replace (combine (seq 0 (length gs)) (map coroutine_init gs)) with (map (fun k => (k, coroutine_init (nth k gs gen_end))) (seq 0 (length gs))); [reflexivity|].
  rewrite <- (map_length coroutine_init gs) at 2. rewrite (combine_map _ _ (coroutine_init gen_end)), map_length.
  apply map_ext. intro k. rewrite Nat.sub_0_r, map_nth. reflexivity.
Qed.

(** * A coroutine that does not block *)
Lemma ready_twice : forall S D n k rest (tbl : table) done (c : cor S D) s s1 v, lookup_key k tbl = Some c -> loop false n c s = Some (s1, Finished v) ->
  run_ready n (k :: k :: rest) tbl done s = (s1, Some (Err EKey)).
Proof. intros S D n k rest tbl done c s s1 v L E. cbn [run_ready]. rewrite L, E. rewrite lookup_remove_eq. reflexivity. Qed.
Lemma react_raises : forall S D n m choose objs (tbl : table) done (s : S) s1 e, run_ready (D := D) n objs tbl done s = (s1, Some (Err e)) ->
  react n m choose objs tbl done s = (s1, RRaised e).
Proof. intros S D n m choose objs tbl done s s1 e H. destruct m; cbn [react]; rewrite H; reflexivity. Qed.
Lemma first_of : forall S D (g : nat -> gen S D) k rest, lookup_key k (map (fun k => (k, coroutine_init (g k))) (distinct (k :: rest))) = Some (coroutine_init (g k)).
Proof. intros S D g k rest. cbn [distinct map]. unfold lookup_key. cbn [find fst]. rewrite Nat.eqb_refl. reflexivity. Qed.
Lemma twice_at_once : forall S D n m choose (g : gen S D) s s1 v k rest (body : nat -> gen S D), async_wait n 0 choose [g] s = (s1, Some (Ok [v])) -> body k = g ->
  async_wait_objects n m choose (k :: k :: rest) body s = (s1, Some (Err EKey)) /\
  async_wait_objects n m choose [k] body s = (s1, Some (Ok [v])).
Proof.
  intros S D n m choose g s s1 v k rest body H <-. unfold async_wait, keys in H. cbn [length seq map combine] in H. unfold react in H.
  cbn [run_ready lookup_key find fst Nat.eqb option_map snd] in H.
  destruct (loop false n (coroutine_init (body k)) s) as [[s2 [r|c|e]]|] eqn:E; cbn in H; try discriminate H.
  injection H as <- <-. split.
  - unfold async_wait_objects. rewrite (react_raises _ _ n m choose _ _ _ _ s2 EKey); [reflexivity|].
    eapply ready_twice; [apply first_of|exact E].
  - unfold async_wait_objects. cbn [distinct filter map].
    assert (X : run_ready n [k] [(k, coroutine_init (body k))] [] s = (s2, Some (Ok ([], [(k, r)])))).
    { cbn [run_ready]. unfold lookup_key at 1. cbn [find fst]. rewrite Nat.eqb_refl. cbn [option_map snd]. rewrite E. cbn [remove_key filter fst].
      rewrite Nat.eqb_refl. reflexivity. }
    replace (react n m choose [k] [(k, coroutine_init (body k))] [] s) with (s2, RDone [(k, r)]) by (destruct m; cbn [react]; rewrite X; reflexivity).
    cbn [collect]. unfold lookup_key. cbn [find fst]. rewrite Nat.eqb_refl. reflexivity.
Qed.

(** * A command on Windows *)
Ltac onestep := cbv beta iota; rewrite step_eq; unfold next_step; cbn [stack args cres input_of resume].
Section Win.
Context {T : Type} (tgt : target T).
Notation os := (win_async_os (A := pyval) parse_sense (honest_win tgt)).
Notation ex := (executer spt (win_world T)).

Lemma blank_handled : forall k h h1 q b idx objs t inc, spt_create k h = Ok (h1, q, b) -> win_fits k ->
  win_handle parse_sense (Spt (length objs) idx b) (WinWorld (D := T) h1 (objs ++ [q]) t inc) = Ok (RespData (blank k), idx).
Proof.
  intros k h h1 q b idx objs t inc C F. destruct (spt_block k h F) as (h2 & q2 & b2 & C2 & _ & _ & _ & _ & _ & S0 & _ & _ & X).
  rewrite C in C2. injection C2 as <- <- <-. unfold win_handle. cbn [w_objs spt_obj w_heap spt_data packet_id]. rewrite nth_new, S0. cbn [Z.eqb negb].
  destruct k as [cdb n|cdb data]; cbn [blank].
  - destruct (0 <? n) eqn:N.
    + destruct X as (D1 & D2 & p & -> & P). rewrite D1, D2. apply Z.ltb_lt in N.
      destruct (Z.eqb_spec n 0); [lia|]. change (1 =? SCSI_IOCTL_DATA_IN) with true. cbn [andb negb].
      unfold raw_of. rewrite P. cbn [bind]. rewrite firstn_all2 by (unfold zeros; rewrite repeat_length; lia). reflexivity.
    + destruct X as (D1 & D2 & _). rewrite D1. reflexivity.
  - destruct (0 <? zlen data); destruct X as (D1 & _); rewrite D1; reflexivity.
Qed.

Lemma early : forall s t c k, win_idle s t -> issued c = Ok k -> win_fits k ->
  exists s1 c1 s2, win_idle s2 t /\ (forall n, loop false (6 + n) (coroutine_init (coroutine os (Do c finish))) s = Some (s1, Blocked c1)) /\
    forall n, loop false (30 + n) c1 s1 = Some (s2, match unanswered c k with Ok v => Finished (RVal (yielded_value v)) | Err e => Raised e end).
Proof.
  intros s t c k (P & M & W) J F. unfold issued in J. destruct (constructed c) as [o|e] eqn:C; [|discriminate J]. cbn [bind] in J.
  destruct s as [pd idx mq log [h objs t0 inc]]. cbn in P, M, W. subst pd t0.
  destruct (spt_block k h F) as (h1 & q & b & B & _).
  set (s := Executer [] idx mq log (WinWorld h objs t inc)).
  set (me := fresh s).
  set (r := Spt (length objs) idx b).
  set (s1 := Executer [(idx, (r, Some me))] ((idx + 1) mod mq) mq log (WinWorld h1 (objs ++ [q]) t inc)).
  assert (SB : send_begin os k (Some me) s = (s1, Ok (idx, r))).
  { unfold send_begin, next_packet_index. subst s. cbn [pending max_queue_size]. change (zlen []) with 0. destruct (Z.leb_spec mq 0); [lia|].
    cbn [os_prepare_to_send win_async_os packet_index]. unfold win_prepare. cbn [world with_index w_heap]. rewrite B. reflexivity. }
  assert (PU : put_obj (length objs) q (objs ++ [q]) = objs ++ [q]).
  { clear. induction objs as [|x objs IH]; [reflexivity|]. cbn. rewrite IH. reflexivity. }
  assert (F1 : resume (os_send os r) (Send VNone) s1 = (s1, Yield (YGen (win_async_ioctl (honest_win tgt) r)) (win_send_append r))) by reflexivity.
  assert (F2 : resume (win_async_ioctl (A := pyval) (honest_win tgt) r) (Send VNone) s1 = (s1, Yield (YTok (win_token (honest_win tgt) r)) gen_end)).
  { cbn [win_async_ioctl resume]. subst s1 r. cbn [world w_objs spt_obj]. rewrite nth_new. cbn [dev_start honest_win]. unfold honest_start.
    cbn [w_heap w_dev incoming_packets negb andb]. change (997 =? ERROR_IO_PENDING) with true. cbv iota. unfold with_world.
    cbn [pending packet_index max_queue_size cb_log]. rewrite PU. reflexivity. }
  set (s3 := Executer [(idx, (r, Some me))] ((idx + 1) mod mq) mq log (WinWorld h1 (objs ++ [q]) t (inc ++ [r]))).
  set (s4 := Executer [(idx, (r, Some me))] ((idx + 1) mod mq) mq log (WinWorld h1 (objs ++ [q]) t inc)).
  set (s5 := Executer (R := spt) [] ((idx + 1) mod mq) mq (log ++ [(me, RespData (blank k))]) (WinWorld h1 (objs ++ [q]) t inc)).
  assert (NR : forall x y z w, results_of me (Executer (R := spt) (W := win_world T) x y z log w) = []).
  { intros x y z w. unfold results_of. cbn [cb_log]. pose proof (fresh_new _ _ s) as N. fold me in N. cbn [cb_log s] in N. clearbody me. clear -N.
    induction log as [|[j p] l IH]; [reflexivity|]. cbn [filter fst]. destruct (Nat.eqb_spec j me) as [->|]; [exfalso; apply N; left; reflexivity|].
    apply IH. intro I. apply N. right. exact I. }
  assert (F3 : resume (call_loop os me) (Send VNone) s3 = (s3, Yield (YGen (process_pending_response os)) (call_loop os me))).
  { cbn [call_loop resume]. subst s3. rewrite NR. reflexivity. }
  assert (F4 : resume (process_pending_response os) (Send VNone) s3 = (s3, Yield (YGen (os_receive os)) process_received)) by reflexivity.
  assert (F5 : resume (os_receive os) (Send VNone) s3 = (s4, Yield (YVal (VData (DPair (RespData (blank k)) idx))) gen_end)).
  { cbn [os_receive win_async_os win_receive resume]. subst s3. cbn [world incoming_packets]. unfold pop_last. rewrite rev_app_distr. cbn [rev app].
    rewrite rev_involutive. cbn [w_heap w_objs w_dev]. subst r. rewrite (blank_handled k h h1 q b idx objs t inc B F). reflexivity. }
  assert (F6 : resume process_received (Send (VData (DPair (RespData (blank k)) idx))) s4 = (s5, Yield (YVal (VData (DBool true))) (process_end (R := spt) (W := win_world T) (O := wire unit pyval)))).
  { cbn [process_received resume]. unfold complete. subst s4. cbn [pending dict_get]. rewrite Z.eqb_refl. cbn [dict_del filter fst]. unfold with_pending, with_log.
    cbn [cb_log pending packet_index max_queue_size world]. rewrite Z.eqb_refl. reflexivity. }
  assert (F7 : resume (call_loop os me) (Send (VData (DBool true))) s5 = (s5, Yield (YVal (val_of_data (blank k))) process_end)).
  { cbn [call_loop resume]. assert (X : results_of me s5 = [RespData (blank k)]); [|rewrite X; reflexivity].
    pose proof (NR [] idx mq (world s5)) as N. unfold results_of in *. subst s5. cbn [cb_log] in *. rewrite filter_app, map_app, N. cbn [filter fst app map].
    rewrite Nat.eqb_refl. reflexivity. }
  assert (RD : result_datagram (val_of_data (O := wire unit pyval) (blank k)) = Some (blank k)) by (destruct (blank k); reflexivity).
  assert (IV : input_of (val_of_data (O := wire unit pyval) (blank k)) = Send (val_of_data (blank k))) by (destruct (blank k); reflexivity).
  exists s1. eexists. exists (Executer [] ((idx + 1) mod mq) mq (log ++ [(me, RespData (blank k))]) (WinWorld h1 (objs ++ [q]) t inc)).
  split; [split; [reflexivity|split; [exact M|reflexivity]]|]. split.
  - intro n. unfold coroutine_init. cbn [Nat.add].
    onestep. cbn [coroutine resume]. rewrite C. onestep. cbn [execute resume]. rewrite J.
    onestep. cbn [call resume]. onestep. cbn [send resume]. fold me. rewrite SB.
    onestep. rewrite F1. onestep. rewrite F2. reflexivity.
  - intro n. cbn [Nat.add].
    do 2 (onestep; cbn [gen_end win_send_append resume]). cbn [send_tail]. onestep. cbn [send_tail resume]. onestep.
    match goal with |- context [with_world s1 ?w] => change (with_world s1 w) with s3 end. rewrite F3.
    onestep. rewrite F4. onestep. rewrite F5. onestep. cbn [gen_end resume]. onestep. rewrite F6. onestep. cbn [process_end resume].
    onestep. rewrite F7. onestep. rewrite IV. cbn [process_end resume]. onestep. rewrite IV. cbn [execute_rest resume].
    rewrite RD. unfold unanswered, yields. rewrite C. cbn [bind]. destruct (o_finish o (o_attrs o) (blank k)) as [v|e].
    + onestep. cbn [gen_end]. rewrite (input_of_not_exn (yielded_value v)) by apply yielded_not_exn. cbn [resume gen_end].
      onestep. rewrite (input_of_not_exn (yielded_value v)) by apply yielded_not_exn. cbn [resume caught finish coroutine].
      rewrite python_yielded. onestep. rewrite (input_of_not_exn (yielded_value v)) by apply yielded_not_exn. cbn [resume gen_end].
      reflexivity.
    + cbn [unwind]. onestep. cbn [resume caught finish coroutine]. reflexivity.
Qed.

Lemma twice : forall s t c k, win_idle s t -> issued c = Ok k -> win_fits k ->
  exists s', win_idle s' t /\ forall n m choose j (body : nat -> gen ex (dval (wire unit pyval))), (30 <= n)%nat -> body j = coroutine os (Do c finish) ->
    async_wait_objects n m choose [j; j] body s =
      (s', Some (match unanswered c k with Ok v => Ok [RVal (yielded_value v); RVal (yielded_value v)] | Err e => Err e end)) /\
    forall rest, async_wait_objects n m choose (j :: j :: j :: rest) body s =
      (s', Some (match unanswered c k with Ok _ => Err EKey | Err e => Err e end)).
Proof.
  intros s t c k Hi J F. destruct (early s t c k Hi J F) as (s1 & c1 & s2 & I2 & L1 & L2). exists s2. split; [exact I2|].
  intros n m choose j body N B.
  assert (E1 : loop false n (coroutine_init (body j)) s = Some (s1, Blocked c1)) by (rewrite B; replace n with (6 + (n - 6))%nat by lia; apply L1).
  assert (E2 : loop false n c1 s1 = Some (s2, match unanswered c k with Ok v => Finished (RVal (yielded_value v)) | Err e => Raised e end))
    by (replace n with (30 + (n - 30))%nat by lia; apply L2).
  assert (X : forall more tbl, lookup_key j tbl = Some (coroutine_init (body j)) ->
    run_ready n (j :: j :: more) tbl [] s = match unanswered c k with
      | Ok v => run_ready n more (remove_key j (update_key j c1 tbl)) [(j, RVal (yielded_value v))] s2
      | Err e => (s2, Some (Err e)) end).
  { intros more tbl Lk. cbn [run_ready]. rewrite Lk, E1. rewrite (lookup_update_eq _ _ _ _ Lk), E2. destruct (unanswered c k); reflexivity. }
  split.
  - unfold async_wait_objects. pose proof (X [] _ (first_of _ _ body j [j])) as Y.
    assert (TB : remove_key j (update_key j c1 (map (fun k0 => (k0, coroutine_init (body k0))) (distinct [j; j]))) = []).
    { unfold remove_key, update_key. repeat (cbn [distinct filter map negb fst]; rewrite Nat.eqb_refl). reflexivity. }
    rewrite TB in Y. destruct (unanswered c k) as [v|e].
    + change (run_ready n [] [] [(j, RVal (yielded_value v))] s2) with (s2, Some (Ok (@nil (nat * cor ex (dval (wire unit pyval))), [(j, RVal (yielded_value v) : res ex (dval (wire unit pyval)))]))) in Y.
      replace (react n m choose [j; j] _ [] s) with (s2, RDone [(j, RVal (yielded_value v) : res ex (dval (wire unit pyval)))]) by (destruct m; cbn [react]; rewrite Y; reflexivity).
      cbn [collect]. unfold lookup_key. cbn [find fst]. rewrite Nat.eqb_refl. reflexivity.
    + rewrite (react_raises _ _ n m choose _ _ _ _ s2 e Y). reflexivity.
  - intro rest. unfold async_wait_objects. pose proof (X (j :: rest) _ (first_of _ _ body j (j :: j :: rest))) as Y.
    destruct (unanswered c k) as [v|e].
    + rewrite (react_raises _ _ n m choose _ _ _ _ s2 EKey); [reflexivity|]. rewrite Y. cbn [run_ready]. rewrite lookup_remove_eq. reflexivity.
    + rewrite (react_raises _ _ n m choose _ _ _ _ s2 e Y). reflexivity.
Qed.
End Win.

Lemma read_twice : forall T (tgt : target T) s t lba count, win_idle s t -> 0 <= lba < 2 ^ 32 -> 0 < count < 2 ^ 16 ->
  exists s', win_idle s' t /\ forall n m choose j (body : nat -> gen (executer spt (win_world T)) (dval (wire unit pyval))), (30 <= n)%nat ->
    body j = coroutine (win_async_os parse_sense (honest_win tgt)) (Do (Read10 lba count 512 []) finish) ->
    let zeroes := RVal (VData (DBytes (zeros (Z.to_nat (count * 512))))) in
    async_wait_objects n m choose [j; j] body s = (s', Some (Ok [zeroes; zeroes])).
Proof.
  intros T tgt s t lba count Hi L C. pose proof (read10_spec lba count 512 []) as S.
  assert (J : exists cdb, issued (Read10 lba count 512 []) = Ok (ReadCmd cdb (count * 512)) /\ zlen cdb <= 16).
  { assert (R : issued (Read10 lba count 512 []) = do o <- read10 lba count 512; request (assigned [] o)).
    { unfold issued. cbn [constructed]. unfold with_settings. destruct (read10 lba count 512); reflexivity. }
    rewrite R. clear R. specialize (S ltac:(constructor)).
    destruct (do o <- read10 lba count 512; request (assigned [] o)) as [k|e]; [|exfalso; apply S; repeat split; try lia; repeat constructor; cbn; lia].
    destruct (asks_ok _ _ _ _ _ S eq_refl) as (_ & cdb & -> & X). exists cdb. split; [replace (count * 512) with (512 * count) by lia; reflexivity|eapply interpret_short; exact X]. }
  destruct J as (cdb & J & Z0). destruct (twice tgt s t _ _ Hi J) as (s' & I & H); [split; cbn [command_of]; lia|].
  exists s'. split; [exact I|]. intros n m choose j body N B zeroes. destruct (H n m choose j body N B) as [X _]. rewrite X.
  unfold unanswered. cbn [blank]. destruct (Z.ltb_spec 0 (count * 512)); [|lia].
  replace (yields (constructed (Read10 lba count 512 [])) (Some (zeros (Z.to_nat (count * 512))))) with (Ok (PBytes (zeros (Z.to_nat (count * 512))))); [reflexivity|].
  unfold issued in J. destruct (constructed (Read10 lba count 512 [])) as [o|e] eqn:E; [|discriminate J]. cbn [constructed] in E.
  unfold with_settings, read10 in E.
  repeat match type of E with context [assert_ ?b] => destruct b; cbn [assert_ bind] in E; [|discriminate E] end. injection E as <-. reflexivity.
Qed.
