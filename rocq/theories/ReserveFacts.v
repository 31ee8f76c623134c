(** Lemmas on several hosts that share a disk with persistent reservations. *)
From Coq Require Import String ZArith List Bool Lia Eqdep_dec PeanoNat.
From Verif Require Import Base BaseFacts Gen SpecGen GenFacts Executer SpecCall ExecFacts
  OsCommon OsLinux OsSolaris OsAix OsWin32 SpecSg SpecDrivers SpecSession LinuxFacts SessionFacts
  Instruct Command CdbPrimary SpecDevice SpecCdb CdbPrimaryFacts CdbPersistFacts CdbResponseFacts CdbAllFacts CdbPropFacts SpecExecute ExecuteFacts DiskFacts
  Sense SpecSense SenseFacts SpecPortable PortableFacts SpecReserve.
Import ListNotations.
Local Open Scope string_scope.
Local Open Scope list_scope.
Local Open Scope Z_scope.

(** * The answers that occur *)

Definition nice (a : answer) : Prop :=
  a_host a = 0 /\ conforming_sense (a_sense a) /\
  ((a_status a = 0 /\ a_driver a = 0) \/ (a_status a = 2 /\ a_driver a = 8) \/ (a_status a = 24 /\ a_driver a = 0)).
Definition nice_expected (padded : bool) (c : scsi_command) (a : answer) : resp :=
  if a_status a =? 0 then RespData (if padded then data_wanted c (a_data a) else win_data c (a_data a))
  else if a_status a =? 2 then RespExn (EAsiCheckCondition (pad 255 (a_sense a)))
  else RespExn EAsiSCSI.

Lemma nice_linux : forall c a, nice a -> linux_expected c a = nice_expected true c a.
Proof.
  intros c a (H & _ & [(S & D)|[(S & D)|(S & D)]]); unfold linux_expected, nice_expected; rewrite S, D, H; reflexivity.
Qed.
Lemma nice_solaris : forall c a, nice a -> solaris_expected c a = nice_expected true c a.
Proof.
  intros c a (H & _ & [(S & D)|[(S & D)|(S & D)]]); unfold solaris_expected, nice_expected; rewrite S; reflexivity.
Qed.
Lemma nice_aix : forall c a, nice a -> aix_expected c a = nice_expected true c a.
Proof.
  intros c a (H & _ & [(S & D)|[(S & D)|(S & D)]]); unfold aix_expected, nice_expected; rewrite S, ?H; reflexivity.
Qed.
Lemma nice_win : forall c a, nice a -> win_expected c a = nice_expected false c a.
Proof.
  intros c a (H & _ & [(S & D)|[(S & D)|(S & D)]]); unfold win_expected, nice_expected; rewrite S; reflexivity.
Qed.

(** * One command on one system *)

Definition behaves {T} (sys : system T) : Prop :=
  (forall s t, idle sys s t -> dev sys s = t) /\
  (forall s t t', idle sys s t -> idle sys (attach sys s t') t' /\ cb_log (attach sys s t') = cb_log s) /\
  (forall (tgt : target T) s t me c k t' a, idle sys s t -> ~ In me (map fst (cb_log s)) ->
    proper c -> issued c = Ok k -> moderate k -> tgt t (command_of k) (data_out k) = (t', a) -> nice a ->
    exists s', user_runs (os_of sys tgt) me s (constructed c) s'
        (shown match nice_expected (pads sys) k a with RespExn e => Err e | RespData d => yields (constructed c) d end) /\
      idle sys s' t' /\ map fst (cb_log s') = map fst (cb_log s) ++ [me]).

Section One.
Context {R W H T : Type} (os : os_layer R W (wire H pyval) scsi_command) (tgt : target T).
Context (expected : scsi_command -> answer -> resp).
Context (Idle : executer R W -> T -> Prop) (okc : scsi_command -> Prop) (oka : answer -> Prop).
Context (step : steps os tgt expected Idle okc oka) (padded : bool).

Lemma library_nice : (forall k, zlen (command_of k) <= 16 -> moderate k -> okc k) ->
  (forall a, nice a -> oka a) -> (forall k a, nice a -> expected k a = nice_expected padded k a) ->
  forall s t me c k t' a, Idle s t -> ~ In me (map fst (cb_log s)) ->
  proper c -> issued c = Ok k -> moderate k -> tgt t (command_of k) (data_out k) = (t', a) -> nice a ->
  exists s', user_runs os me s (constructed c) s'
      (shown match nice_expected padded k a with RespExn e => Err e | RespData d => yields (constructed c) d end) /\
    Idle s' t' /\ map fst (cb_log s') = map fst (cb_log s) ++ [me].
Proof.
  intros Hk Ha He s t me c k t' a Hi Hl P J K G A. pose proof (issued_spec c P) as S. rewrite J in S. destruct S as [_ S].
  destruct (issued_object c k J) as (o & C & Q). rewrite C.
  assert (O : okc k) by (apply Hk; auto; eapply cdb_at_most_16; eauto).
  destruct (step s t me k t' a Hi O G (Ha a A) Hl) as (s1 & E1 & E2 & E3).
  exists s1. split; [|split; [exact E2|rewrite E3, map_app; reflexivity]]. constructor.
  rewrite <- He by auto.
  change (sync_wait_ends (execute os me o) s s1 (shown (result_of expected o k a))).
  eapply execute_result; eauto.
Qed.
End One.

Lemma four_behave : forall T (sys : system T), one_of_four sys -> behaves sys.
Proof.
  intros T sys F. destruct F as [timeout|fails timeout Hf|timeout use_ctypes|]; split; [|split| |split| |split| |split].
  - intros s t Hi; cbn [idle linux_system solaris_system aix_system win_system] in Hi; destruct Hi as (_ & _ & _ & h & buf & E). cbn in *. rewrite E. reflexivity.
  - intros s t t' Hi; cbn [idle linux_system solaris_system aix_system win_system] in Hi; destruct Hi as (H1 & H2 & H3 & h & buf & E). split; [|reflexivity].
    repeat split; cbn; auto; try lia. rewrite E. cbn. eauto.
  - intros tgt s t me c k t' a Hi Hl P J M G A. cbn [pads linux_system os_of idle mem req] in *.
    eapply (library_nice _ _ _ _ _ _ (linux_step (A := pyval) parse_sense tgt timeout) true); eauto using fits_linux, nice_linux.
    intros x (_ & Hc & _) _. apply conforming_parses. auto.
  - intros s t Hi; cbn [idle linux_system solaris_system aix_system win_system] in Hi; destruct Hi as (_ & _ & _ & E). exact E.
  - intros s t t' Hi; cbn [idle linux_system solaris_system aix_system win_system] in Hi; destruct Hi as (H1 & H2 & H3 & E). split; [|reflexivity]. repeat split; cbn; auto; try lia.
  - intros tgt s t me c k t' a Hi Hl P J M G A. cbn [pads solaris_system os_of idle mem req] in *.
    eapply (library_nice _ _ _ _ _ _ (solaris_step (A := pyval) parse_sense tgt fails timeout) true); eauto using fits_solaris, nice_solaris.
    intros x (Hh & Hc & Hs). split; [|split; [apply Hf; exact Hh|]].
    + unfold byte_status. lia.
    + intros _. apply conforming_parses. auto.
  - intros s t Hi; cbn [idle linux_system solaris_system aix_system win_system] in Hi; destruct Hi as (_ & _ & _ & E). exact E.
  - intros s t t' Hi; cbn [idle linux_system solaris_system aix_system win_system] in Hi; destruct Hi as (H1 & H2 & H3 & E). split; [|reflexivity]. repeat split; cbn; auto; try lia.
  - intros tgt s t me c k t' a Hi Hl P J M G A. cbn [pads aix_system os_of idle mem req] in *.
    eapply (library_nice _ _ _ _ _ _ (aix_step (A := pyval) parse_sense tgt timeout use_ctypes) true); eauto using fits_aix, nice_aix.
    intros x (_ & Hc & _) _. apply conforming_parses. auto.
  - intros s t Hi; cbn [idle linux_system solaris_system aix_system win_system] in Hi; destruct Hi as (_ & _ & E). exact E.
  - intros s t t' Hi; cbn [idle linux_system solaris_system aix_system win_system] in Hi; destruct Hi as (H1 & H2 & E). split; [|reflexivity]. repeat split; cbn; auto; try lia.
  - intros tgt s t me c k t' a Hi Hl P J M G A. cbn [pads win_system os_of idle mem req] in *.
    eapply (library_nice _ _ _ _ _ _ (win_step (A := pyval) parse_sense tgt) false); eauto using fits_win, nice_win.
    intros x (Hh & Hc & _). split; auto. intros _. apply conforming_parses. auto.
Qed.

(** * The reservations stay in range *)

Lemma next_generation_ok : forall g, 0 <= next_generation g < 2 ^ 32.
Proof. intro g. apply Z.mod_pos_bound. lia. Qed.

Lemma settled_ok : forall st, pr_ok st -> pr_ok (settled st).
Proof.
  intros st (G & N & K & H). unfold settled. destruct (held st) as [[h ty]|] eqn:E.
  - match goal with |- context [if ?b then PrState _ _ None else _] => destruct b end; unfold pr_ok; cbn [generation registered held]; rewrite ?E; auto.
  - unfold pr_ok. rewrite E. auto.
Qed.

Lemma filter_keys : forall (f : nat * Z -> bool) l, NoDup (map fst l) -> NoDup (map fst (filter f l)).
Proof.
  intros f l. induction l as [|p l IH]; intros N; cbn; [constructor|]. inversion N as [|x y N1 N2]; subst.
  destruct (f p); cbn; [constructor|]; auto. intro I. apply N1. apply in_map_iff in I. destruct I as (q & E & I).
  apply filter_In in I. rewrite <- E. apply in_map. tauto.
Qed.

Lemma filter_ok : forall (f : nat * Z -> bool) l, Forall (fun p => 0 <= snd p < 2 ^ 64) l ->
  Forall (fun p => 0 <= snd p < 2 ^ 64) (filter f l).
Proof. intros f l K. apply Forall_forall. intros x Hx. apply filter_In in Hx. rewrite Forall_forall in K. apply K. tauto. Qed.

Lemma not_registered : forall h st, is_registered h st = false -> ~ In h (map fst (registered st)).
Proof.
  intros h st R I. apply in_map_iff in I. destruct I as (p & E & I). unfold is_registered, key_of in R.
  destruct (find _ (registered st)) as [q|] eqn:F; [discriminate R|].
  apply (find_none _ _ F) in I. cbn in I. rewrite E, Nat.eqb_refl in I. discriminate I.
Qed.

Lemma registered_pair : forall h k st, NoDup (map fst (registered st)) -> In (h, k) (registered st) -> key_of h st = Some k.
Proof.
  intros h k st N I. unfold key_of. induction (registered st) as [|[h' k'] l IH]; [contradiction|].
  cbn. inversion N as [|x y N1 N2]; subst. destruct I as [E|I].
  - injection E as -> ->. rewrite Nat.eqb_refl. reflexivity.
  - destruct (Nat.eqb_spec h' h) as [->|Ne].
    + exfalso. apply N1. apply in_map_iff. exists (h, k). auto.
    + apply IH; auto.
Qed.

Lemma NoDup_app_one : forall A (l : list A) x, NoDup l -> ~ In x l -> NoDup (l ++ [x]).
Proof.
  intros A l x N I. induction N as [|y l M N IH]; cbn; [repeat constructor; auto|].
  constructor; [|apply IH; intro J; apply I; right; exact J].
  intro J. apply in_app_or in J. destruct J as [J|[->|[]]]; [contradiction|]. apply I. left. reflexivity.
Qed.

Lemma set_key_ok : forall h new st, 0 <= new < 2 ^ 64 -> pr_ok st -> pr_ok (set_key h new st).
Proof.
  intros h new st N (G & D & K & H). apply settled_ok. split; [|split; [|split]]; cbn [generation registered held]; auto using next_generation_ok.
  - destruct (new =? 0); [|destruct (is_registered h st) eqn:R].
    + apply filter_keys. exact D.
    + rewrite map_map. rewrite (map_ext _ fst); [exact D|]. intros [h' k]. cbn. destruct (Nat.eqb_spec h' h); cbn; auto.
    + rewrite map_app. cbn [map fst]. apply NoDup_app_one; auto. apply not_registered. exact R.
  - destruct (new =? 0); [|destruct (is_registered h st)].
    + apply filter_ok. exact K.
    + apply Forall_map. eapply Forall_impl; [|exact K]. intros [h' k] Hk. cbn in *. destruct (Nat.eqb h' h); auto.
    + apply Forall_app. split; auto.
Qed.

Lemma valid_type_range : forall ty, valid_type ty = true -> 0 <= ty < 16.
Proof.
  intros ty H. unfold valid_type in H. apply existsb_exists in H. destruct H as (x & I & E). apply Z.eqb_eq in E. subst.
  cbn in I. lia.
Qed.

Definition action_keys (a : pr_action) : Prop :=
  match a with Register _ new | RegisterIgnore new => 0 <= new < 2 ^ 64 | _ => True end.

Lemma pr_step_ok : forall h a st, action_keys a -> pr_ok st -> pr_ok (fst (pr_step h a st)).
Proof.
  intros h a st A P. destruct a; cbn [pr_step action_keys] in *; unfold with_key.
  - destruct (key_of h st); [destruct (_ =? _); cbn; auto using set_key_ok|].
    destruct (key =? 0); [destruct (new =? 0)|]; cbn; auto using set_key_ok.
  - destruct (is_registered h st || negb (new =? 0)); cbn; auto using set_key_ok.
  - destruct (key_of h st); [|exact P]. destruct (z =? key); [|exact P].
    destruct (valid_type ty) eqn:V; cbn [negb]; [|exact P]. destruct (held st) as [[h0 ty0]|] eqn:E.
    + destruct (_ && _); exact P.
    + destruct P as (G & D & K & _). split; [exact G|]. split; [exact D|]. split; [exact K|]. cbn. apply valid_type_range. exact V.
  - destruct (key_of h st); [|exact P]. destruct (z =? key); [|exact P]. destruct (held st) as [[h0 ty0]|] eqn:E; [|exact P].
    destruct (negb (holds h st)); [exact P|]. destruct (ty0 =? ty); [|exact P].
    destruct P as (G & D & K & _). split; [exact G|]. split; [exact D|]. split; [exact K|]. exact Logic.I.
  - destruct (key_of h st); [|exact P]. destruct (z =? key); [|exact P].
    split; [apply next_generation_ok|]. split; [constructor|]. split; [apply Forall_nil|exact Logic.I].
  - destruct (key_of h st); [|exact P]. destruct (z =? key); [|exact P]. unfold preempted.
    pose proof P as (G & D & K & H0). destruct (takes_over victim st).
    + destruct (valid_type ty) eqn:V; cbn [negb fst]; [|exact P].
      split; [apply next_generation_ok|]. split; [apply filter_keys; exact D|]. split; [apply filter_ok; exact K|].
      cbn. apply valid_type_range. exact V.
    + destruct (victim =? 0); [exact P|]. destruct (existsb _ _); [|exact P].
      cbn [fst]. apply settled_ok. split; [apply next_generation_ok|]. split; [apply filter_keys; exact D|].
      split; [apply filter_ok; exact K|exact H0].
Qed.

Lemma action_fits : forall sa ty key sakey a, action_of sa ty key sakey = Some a -> 0 <= sakey < 2 ^ 64 ->
  action_keys a /\ 0 <= sa <= 6.
Proof.
  intros sa ty key sakey a E K. unfold action_of in E.
  repeat match type of E with
  | (if ?b then _ else _) = _ => destruct b eqn:?
  end; try discriminate E; injection E as <-; cbn; split; auto; lia.
Qed.

(** * The data of PERSISTENT RESERVE IN *)

Lemma zeros_ok : forall n, bytes_ok (zeros n).
Proof. intro n. apply Forall_forall. intros x Hx. apply repeat_spec in Hx. subst. unfold byte_ok. lia. Qed.
Lemma zeros_len : forall n, length (zeros n) = n.
Proof. intro n. apply repeat_length. Qed.

(** What the user's class gets: the device's data cut at the allocation length, and then filled up or not. *)
Lemma got_data : forall padded cdb alloc data, 0 < alloc -> 0 < zlen data ->
  exists m, nice_expected padded (ReadCmd cdb alloc) (good (firstn (Z.to_nat alloc) data)) =
    RespData (Some (firstn (Z.to_nat alloc) (data ++ zeros m))) /\
    m = if padded then (Z.to_nat alloc - length data)%nat else 0%nat.
Proof.
  intros padded cdb alloc data A D. eexists. split; [|reflexivity].
  unfold nice_expected, good. cbn [a_status a_data]. cbn [Z.eqb]. destruct padded.
  - cbn [data_wanted]. replace (0 <? alloc) with true by (symmetry; apply Z.ltb_lt; lia). do 2 f_equal. unfold pad.
    rewrite firstn_firstn, Nat.min_id, firstn_app. f_equal. rewrite firstn_length.
    destruct (Nat.le_gt_cases (Z.to_nat alloc) (length data)) as [L|L].
    + replace (Z.to_nat alloc - Nat.min (Z.to_nat alloc) (length data))%nat with 0%nat by lia.
      replace (Z.to_nat alloc - length data)%nat with 0%nat by lia. reflexivity.
    + replace (Z.to_nat alloc - Nat.min (Z.to_nat alloc) (length data))%nat with (Z.to_nat alloc - length data)%nat by lia.
      rewrite firstn_all2; [reflexivity|]. rewrite zeros_len. lia.
  - cbn [data_wanted win_data]. replace (0 <? alloc) with true by (symmetry; apply Z.ltb_lt; lia).
    assert (X : 0 < zlen (firstn (Z.to_nat alloc) data)).
    { unfold zlen in *. rewrite firstn_length. lia. }
    replace (0 <? zlen (firstn (Z.to_nat alloc) data)) with true by (symmetry; apply Z.ltb_lt; lia).
    cbn [andb]. rewrite firstn_firstn, Nat.min_id, app_nil_r. reflexivity.
Qed.

Lemma keys_result : forall padded cdb alloc st, pr_ok st -> 8 <= alloc -> 8 * zlen (registered st) < 2 ^ 32 ->
  match nice_expected padded (ReadCmd cdb alloc)
    (good (firstn (Z.to_nat alloc) (keys_data (generation st) (map snd (registered st))))) with
  | RespExn e => Err e | RespData d => yields (constructed (PrIn 0 alloc)) d
  end = Ok (keys_shown alloc st).
Proof.
  intros padded cdb alloc st (G & _ & K & _) A N.
  set (keys := map snd (registered st)).
  assert (L : length (keys_data (generation st) keys) = (8 + 8 * length keys)%nat) by apply keys_data_length.
  destruct (got_data padded cdb alloc (keys_data (generation st) keys)) as (m & -> & _); [lia|unfold zlen; rewrite L; lia|].
  cbn [constructed].
  destruct (read_keys_needed alloc (generation st) keys (zeros m) (Z.to_nat alloc)) as [E _]; auto; try lia.
  - apply Forall_map. exact K.
  - unfold zlen, keys in *. rewrite map_length. exact N.
  - apply zeros_ok.
  - rewrite E. unfold keys_shown. fold keys. rewrite L. do 2 f_equal.
    unfold zlen.
    destruct (Nat.ltb_spec (Z.to_nat alloc) (8 + 8 * length keys)), (Z.leb_spec (8 + 8 * Z.of_nat (length keys)) alloc); auto; lia.
Qed.

Lemma reservation_key_ok : forall st, pr_ok st -> 0 <= reservation_key st < 2 ^ 64.
Proof.
  intros st (_ & _ & K & _). unfold reservation_key. destruct (held st) as [[h ty]|]; [|lia].
  destruct (all_registrants ty); [lia|]. unfold key_of.
  destruct (find _ (registered st)) as [p|] eqn:E; cbn; [|lia].
  apply find_some in E. rewrite Forall_forall in K. apply K. tauto.
Qed.

Lemma zeros_in : forall a b n, ub a b (zeros n) = 0.
Proof.
  intros a b n. unfold ub, slice. assert (Z : forall l, Forall (fun x => x = 0) l -> be_val l = 0).
  { intros l F. unfold be_val. assert (X : forall acc, acc = 0 -> be_val_from acc l = 0); [|apply X; reflexivity].
    induction F as [|x l -> F IH]; intros acc ->; cbn; [reflexivity|]. apply IH. reflexivity. }
  apply Z. apply Forall_forall. intros x Hx. apply (repeat_spec n 0).
  assert (Y : In x (skipn a (zeros n))). { rewrite <- (firstn_skipn (b - a) (skipn a (zeros n))). apply in_or_app. left. exact Hx. }
  unfold zeros in Y. rewrite <- (firstn_skipn a (repeat 0 n)). apply in_or_app. right. exact Y.
Qed.

Lemma ub_after : forall a b n (l r : bytes), length l = n -> (n <= a)%nat -> ub a b (l ++ r) = ub (a - n) (b - n) r.
Proof.
  intros a b n l r L N. unfold ub, slice. rewrite skipn_app, skipn_all2 by lia. rewrite L. cbn [app].
  replace (b - n - (a - n))%nat with (b - a)%nat by lia. reflexivity.
Qed.

Lemma ub_head : forall n (l r : bytes), length l = n -> ub 0 n (l ++ r) = be_val l.
Proof. intros n l r L. unfold ub, slice. cbn [skipn]. rewrite Nat.sub_0_r, <- L, firstn_app, Nat.sub_diag, firstn_all, app_nil_r. reflexivity. Qed.

Lemma byte_after : forall a n (l r : bytes), length l = n -> (n <= a)%nat -> byte_at a (l ++ r) = byte_at (a - n) r.
Proof. intros a n l r L N. unfold byte_at. rewrite app_nth2 by lia. rewrite L. reflexivity. Qed.

Lemma byte_zeros : forall a n, byte_at a (zeros n) = 0.
Proof. intros a n. unfold byte_at, zeros. revert a. induction n; intros [|a]; cbn; auto. Qed.

Lemma reservation_result : forall padded cdb alloc st, pr_ok st -> 24 <= alloc ->
  match nice_expected padded (ReadCmd cdb alloc) (good (firstn (Z.to_nat alloc) (reservation_data st))) with
  | RespExn e => Err e | RespData d => yields (constructed (PrIn 1 alloc)) d
  end = Ok (reservation_object padded st).
Proof.
  intros padded cdb alloc st P A. pose proof (reservation_key_ok st P) as RK. destruct P as (G & _ & K & H).
  assert (L : length (reservation_data st) = match held st with None => 8%nat | Some _ => 24%nat end).
  { unfold reservation_data. destruct (held st) as [[h ty]|]; rewrite ?app_length, ?be_bytes_length; reflexivity. }
  destruct (got_data padded cdb alloc (reservation_data st)) as (m & -> & Hm); [lia|unfold zlen; rewrite L; destruct (held st); lia|].
  cbn [constructed].
  assert (F : firstn (Z.to_nat alloc) (reservation_data st ++ zeros m) = reservation_data st ++ zeros m).
  { apply firstn_all2. rewrite app_length, zeros_len, Hm. destruct (held st); destruct padded; lia. }
  rewrite F. clear F.
  assert (B : bytes_ok (reservation_data st ++ zeros m)).
  { apply Forall_app. split; [|apply zeros_ok]. unfold reservation_data. apply Forall_app. split; [apply be_bytes_ok|].
    destruct (held st) as [[h ty]|]; [|apply be_bytes_ok].
    apply Forall_app. split; [apply be_bytes_ok|]. apply Forall_app. split; [apply be_bytes_ok|].
    apply Forall_app. split; [apply zeros_ok|]. apply Forall_app. split; [|apply zeros_ok].
    apply Forall_cons; [unfold byte_ok; lia|apply Forall_nil]. }
  rewrite read_reservation_spec by (auto; lia).
  assert (Lz : zlen (reservation_data st ++ zeros m) = Z.of_nat (match held st with None => 8 | Some _ => 24 end + m)).
  { unfold zlen. rewrite app_length, L, zeros_len. reflexivity. }
  assert (E : (zlen (reservation_data st ++ zeros m) <? 8) || (zlen (reservation_data st ++ zeros m) =? 21) = false).
  { rewrite Lz. apply orb_false_iff. rewrite Z.ltb_ge, Z.eqb_neq. rewrite L in Hm. destruct (held st); destruct padded; lia. }
  rewrite E. unfold from. rewrite Lz. rewrite L in Hm.
  assert (G0 : be_val (be_bytes 4 (generation st)) = generation st) by (apply be_val_be_bytes_small; exact G).
  unfold reservation_object. unfold reservation_data.
  destruct (held st) as [[h ty]|] eqn:Eh.
  - assert (R : (be_bytes 4 (generation st) ++ be_bytes 4 16 ++ be_bytes 8 (reservation_key st) ++ zeros 5 ++ [ty] ++ zeros 2) ++ zeros m
      = be_bytes 4 (generation st) ++ be_bytes 4 16 ++ be_bytes 8 (reservation_key st) ++ (zeros 5 ++ [ty] ++ zeros 2 ++ zeros m)).
    { rewrite <- !app_assoc. reflexivity. }
    rewrite R. clear R B E Lz L.
    set (z := zeros 5 ++ [ty] ++ zeros 2 ++ zeros m).
    repeat match goal with |- context [?n <=? Z.of_nat (24 + m)] => replace (n <=? Z.of_nat (24 + m)) with true by (symmetry; apply Z.leb_le; lia) end.
    rewrite (ub_head 4) by (apply be_bytes_length). rewrite G0.
    rewrite (ub_in 4 8 (be_bytes 4 (generation st))) by (rewrite ?be_bytes_length; reflexivity).
    rewrite (ub_after 8 16 4), (ub_after (8 - 4) (16 - 4) 4), (ub_head 8) by (try apply be_bytes_length; lia).
    rewrite (be_val_be_bytes_small 8) by exact RK.
    rewrite !(ub_after _ _ 4 (be_bytes 4 (generation st))) by (rewrite ?be_bytes_length; reflexivity || lia).
    rewrite !(ub_after _ _ 4 (be_bytes 4 16)) by (rewrite ?be_bytes_length; reflexivity || lia).
    rewrite !(ub_after _ _ 8 (be_bytes 8 (reservation_key st))) by (rewrite ?be_bytes_length; reflexivity || lia).
    unfold bf. rewrite !(byte_after _ 4 (be_bytes 4 (generation st))), !(byte_after _ 4 (be_bytes 4 16)), !(byte_after _ 8 (be_bytes 8 (reservation_key st)))
      by (rewrite ?be_bytes_length; reflexivity || lia).
    change (be_val (be_bytes 4 16)) with 16.
    assert (B5 : byte_at (21 - 4 - 4 - 8) z = ty) by reflexivity. rewrite B5.
    change (ub (16 - 4 - 4 - 8) (20 - 4 - 4 - 8) z) with 0. change (ub (20 - 4 - 4 - 8) (21 - 4 - 4 - 8) z) with 0.
    change (ub (22 - 4 - 4 - 8) (24 - 4 - 4 - 8) z) with 0.
    change (2 ^ Z.of_nat 0) with 1. change (2 ^ Z.of_nat 4) with 16. rewrite Z.div_1_r, (Z.mod_small ty) by lia.
    rewrite (Z.div_small ty) by lia. reflexivity.
  - assert (R : (be_bytes 4 (generation st) ++ be_bytes 4 0) ++ zeros m = be_bytes 4 (generation st) ++ be_bytes 4 0 ++ zeros m) by (rewrite <- app_assoc; reflexivity).
    rewrite R. clear R B E Lz L.
    rewrite (ub_head 4) by (apply be_bytes_length). rewrite G0.
    rewrite (ub_in 4 8 (be_bytes 4 (generation st))) by (rewrite ?be_bytes_length; reflexivity).
    change (be_val (be_bytes 4 0)) with 0.
    rewrite !(ub_after _ _ 4 (be_bytes 4 (generation st))), !(ub_after _ _ 4 (be_bytes 4 0)) by (rewrite ?be_bytes_length; reflexivity || lia).
    rewrite !zeros_in. unfold bf.
    rewrite !(byte_after _ 4 (be_bytes 4 (generation st))), !(byte_after _ 4 (be_bytes 4 0)) by (rewrite ?be_bytes_length; reflexivity || lia).
    rewrite byte_zeros. destruct padded.
    + repeat match goal with |- context [?n <=? Z.of_nat (8 + m)] => replace (n <=? Z.of_nat (8 + m)) with true by (symmetry; apply Z.leb_le; lia) end.
      reflexivity.
    + repeat match goal with |- context [?n <=? Z.of_nat (8 + m)] => replace (n <=? Z.of_nat (8 + m)) with false by (symmetry; apply Z.leb_gt; lia) end.
      reflexivity.
Qed.

(** * One command on the shared disk *)

Lemma nice_good : forall data, nice (good data).
Proof. intro data. split; [reflexivity|]. split; [|left; split; reflexivity]. split; [apply Forall_nil|]. intros [E|E]; discriminate E. Qed.
Lemma nice_conflict : nice conflict.
Proof. split; [reflexivity|]. split; [|right; right; split; reflexivity]. split; [apply Forall_nil|]. intros [E|E]; discriminate E. Qed.
Lemma nice_verdict : forall sense v, conforming_sense sense -> nice (verdict_answer sense v).
Proof.
  intros sense [] C; cbn [verdict_answer]; [apply nice_good|apply nice_conflict|].
  split; [reflexivity|]. split; [exact C|]. right. left. split; reflexivity.
Qed.

Lemma object_result : forall c o d, constructed c = Ok o -> o_finish o = raw_result ->
  yields (constructed c) d = Ok (match d with None => PNone | Some b => PBytes b end).
Proof. intros c o d C F. unfold yields. rewrite C. cbn [bind]. rewrite F. reflexivity. Qed.

Lemma pr_out_finish : forall sa key sakey ty kw d o, pr_out sa key sakey ty kw None = Ok o ->
  yields (pr_out sa key sakey ty kw None) d = Ok (match d with None => PNone | Some b => PBytes b end).
Proof.
  intros sa key sakey ty kw d o C. unfold yields. rewrite C. cbn [bind]. unfold pr_out in C.
  apply bind_ok in C. destruct C as (p & _ & C). injection C as <-. reflexivity.
Qed.

Section Step.
Context {T : Type} (tgt : nat -> target T) (view : T -> pr_state) (content : T -> Z -> bytes).
Context (bs capacity : Z) (sense : bytes) (padded : nat -> bool).
Context (Hbs : 1 <= bs) (Dev : shared_disk tgt view content bs capacity sense).

Lemma one_command : forall h c st d st1 d1 r t, ideal_step bs capacity sense padded h c st d st1 d1 r ->
  pr_ok st -> view t = st -> (forall k, 0 <= k < capacity -> content t k = d k) ->
  exists k t1 a, proper c /\ issued c = Ok k /\ moderate k /\ tgt h t (command_of k) (data_out k) = (t1, a) /\ nice a /\
    match nice_expected (padded h) k a with RespExn e => Err e | RespData d => yields (constructed c) d end = r /\
    view t1 = st1 /\ (forall k, 0 <= k < capacity -> content t1 k = d1 k) /\ pr_ok st1.
Proof.
  intros h c st d st1 d1 r t S P V E.
  destruct S as [sa key sakey ty a st d F A|alloc st d A N|alloc st d A|c lba n st d R Pc F N0 In Sz|c lba data st d R Pc F In Sz].
  - destruct (action_fits _ _ _ _ _ A (proj1 (proj2 F))) as [K1 K2].
    assert (Pc : proper (PrOutBasic sa key sakey ty [])).
    { cbn [proper]. split; [lia|]. split; [lia|]. apply Forall_nil. }
    destruct (issued_cases _ Pc) as [I _]. destruct (I F) as (o & k & C & Q & J).
    pose proof (pr_out_basic_spec sa key sakey ty [] (proj1 Pc) (proj1 (proj2 Pc)) (proj2 (proj2 Pc))) as B.
    unfold issued in J. cbn [constructed] in J. rewrite J in B. destruct k as [|cdb p]; [contradiction|].
    destruct B as (_ & B1 & B2 & B3).
    destruct (sd_out _ _ _ _ _ _ Dev h t cdb p sa ty _ a B1 B3 eq_refl eq_refl A) as (t1 & G & V1 & E1).
    exists (WriteCmd cdb p), t1, (verdict_answer sense (snd (pr_step h a (view t)))).
    split; [exact Pc|]. split; [exact J|]. split; [cbn [moderate]; lia|]. split; [exact G|].
    split; [apply nice_verdict; exact (sd_sense _ _ _ _ _ _ Dev)|]. rewrite V in *.
    split; [|split; [exact V1|split; [intros k Hk; rewrite E1 by auto; auto|apply pr_step_ok; auto]]].
    cbn [constructed] in C |- *.
    destruct (snd (pr_step h a st)); cbn [verdict_answer verdict_result nice_expected good conflict rejection a_status Z.eqb Pos.eqb a_sense]; try reflexivity.
    rewrite (pr_out_finish _ _ _ _ _ _ _ C). destruct (padded h); reflexivity.
  - assert (Pc : proper (PrIn 0 alloc)) by exact Logic.I.
    destruct (issued_cases _ Pc) as [I _]. destruct I as (o & k & C & Q & J); [cbn; lia|].
    destruct (asks_ok _ _ _ _ _ (pr_in_spec 0 alloc) J) as (_ & cdb & -> & X).
    destruct (sd_keys _ _ _ _ _ _ Dev h t cdb [] alloc X) as (t1 & G & V1 & E1).
    rewrite V in *. eexists (ReadCmd cdb alloc), t1, _.
    split; [exact Pc|]. split; [exact J|]. split; [cbn [moderate]; lia|]. split; [exact G|]. split; [apply nice_good|].
    split; [apply keys_result; auto; lia|].
    split; [exact V1|]. split; [|exact P]. intros k Hk. rewrite E1 by auto. auto.
  - assert (Pc : proper (PrIn 1 alloc)) by exact Logic.I.
    destruct (issued_cases _ Pc) as [I _]. destruct I as (o & k & C & Q & J); [cbn; lia|].
    destruct (asks_ok _ _ _ _ _ (pr_in_spec 1 alloc) J) as (_ & cdb & -> & X).
    destruct (sd_reservation _ _ _ _ _ _ Dev h t cdb [] alloc X) as (t1 & G & V1 & E1).
    rewrite V in *. eexists (ReadCmd cdb alloc), t1, _.
    split; [exact Pc|]. split; [exact J|]. split; [cbn [moderate]; lia|]. split; [exact G|]. split; [apply nice_good|].
    split; [apply reservation_result; auto; lia|].
    split; [exact V1|]. split; [|exact P]. intros k Hk. rewrite E1 by auto. auto.
  - destruct (read_issue _ _ _ _ Hbs R Pc F) as (o & cdb & f & C & Q & I & Pf & L & N).
    destruct (sd_read _ _ _ _ _ _ Dev h t cdb [] lba n f I Pf L N In) as (t1 & G & V1 & E1).
    exists (ReadCmd cdb (n * bs)), t1, (if may_read h (view t) then good (blocks (content t) lba (Z.to_nat n)) else conflict).
    split; [exact Pc|]. split; [unfold issued; rewrite C; exact Q|]. split; [exact Sz|]. split; [exact G|].
    split; [destruct (may_read h (view t)); [apply nice_good|apply nice_conflict]|]. rewrite V in *.
    split; [|split; [exact V1|split; [intros k Hk; rewrite E1 by auto; auto|exact P]]].
    destruct (may_read h st); [|reflexivity].
    assert (B : zlen (blocks (content t) lba (Z.to_nat n)) = n * bs).
    { rewrite (blocks_length bs capacity) by (try lia; apply (sd_block _ _ _ _ _ _ Dev)). lia. }
    assert (0 < n * bs) by (apply Z.mul_pos_pos; lia).
    rewrite (blocks_ext capacity (Z.to_nat n) (content t) d) in * by (auto; lia).
    unfold nice_expected, good. cbn [a_status a_data Z.eqb]. rewrite <- B, wanted_exact, win_exact.
    replace (zlen (blocks d lba (Z.to_nat n)) =? 0) with false by (symmetry; apply Z.eqb_neq; lia).
    rewrite (object_result c o) by (auto; eapply read_finish; eauto). destruct (padded h); reflexivity.
  - destruct (write_issue _ _ _ _ Hbs R Pc F) as (o & cdb & f & C & Q & I & Pf & L & N).
    assert (N2 : 0 <= zlen data / bs). { apply Z.div_pos; [unfold zlen|]; lia. }
    destruct (sd_write _ _ _ _ _ _ Dev h t cdb data lba (zlen data / bs) f I Pf L N2 In N) as (t1 & G & V1 & E1).
    exists (WriteCmd cdb data), t1, (if may_write h (view t) then good [] else conflict).
    split; [exact Pc|]. split; [unfold issued; rewrite C; exact Q|]. split; [exact Sz|]. split; [exact G|].
    split; [destruct (may_write h (view t)); [apply nice_good|apply nice_conflict]|]. rewrite V in *.
    destruct (may_write h st).
    + split; [|split; [exact V1|split; [intros k Hk; rewrite E1 by auto; apply written_ext; auto|exact P]]].
      unfold nice_expected, good. cbn [a_status a_data Z.eqb]. rewrite (object_result c o) by (auto; eapply write_finish; eauto).
      destruct (padded h); reflexivity.
    + split; [reflexivity|split; [exact V1|split; [intros k Hk; rewrite E1 by auto; auto|exact P]]].
Qed.

(** * Sessions *)

Context (sys : nat -> system T) (Four : forall h, one_of_four (sys h)).

Definition put (hs : hosts sys) (h : nat) (s : executer (req (sys h)) (mem (sys h))) : hosts sys :=
  fun h' => match Nat.eq_dec h h' with
            | left e => eq_rect h (fun x => executer (req (sys x)) (mem (sys x))) s h' e
            | right _ => hs h'
            end.
Lemma put_same : forall hs h s, put hs h s h = s.
Proof.
  intros hs h s. unfold put. destruct (Nat.eq_dec h h) as [e|n]; [|contradiction].
  rewrite <- (eq_rect_eq_dec Nat.eq_dec). reflexivity.
Qed.
Lemma put_other : forall hs h s h', h' <> h -> put hs h s h' = hs h'.
Proof. intros hs h s h' N. unfold put. destruct (Nat.eq_dec h h') as [e|n]; [exfalso; apply N; symmetry; exact e|reflexivity]. Qed.

Lemma cluster : (forall h, padded h = pads (sys h)) ->
  forall (prog : program) st d st' d' l, ideal_session bs capacity sense padded (plain_program prog) st d st' d' l ->
  pr_ok st -> forall (hs : hosts sys) t, (forall h, exists t0, idle (sys h) (hs h) t0) -> view t = st ->
  (forall k, 0 <= k < capacity -> content t k = d k) ->
  NoDup (map (fun p => fst (snd p)) prog) ->
  (forall h me, In me (map (fun p => fst (snd p)) prog) -> ~ In me (map fst (cb_log (hs h)))) ->
  exists hs' t', cluster_runs sys tgt hs t (objects prog) hs' t' l /\
    (forall h, exists t0, idle (sys h) (hs' h) t0) /\ view t' = st' /\ pr_ok st' /\
    (forall k, 0 <= k < capacity -> content t' k = d' k).
Proof.
  intros Hp prog. induction prog as [|[h [me c]] prog IH]; intros st d st' d' l S P hs t Hi V E N Fr; cbn [plain_program map fst snd] in S.
  - inversion S; subst. exists hs, t. split; [constructor|]. auto.
  - inversion S as [|h0 c0 cmds st0 d0 st1 d1 r st'0 d'0 l0 S1 S2 e1 e2 e3 e4 e5 e6]; subst h0 c0 cmds st0 d0 st'0 d'0. subst l.
    destruct (one_command _ _ _ _ _ _ _ _ S1 P V E) as (k & t1 & a & Pc & J & M & G & A & Rr & V1 & E1 & P1).
    destruct (four_behave _ _ (Four h)) as (B1 & B2 & B3). destruct (Hi h) as [t0 Hh].
    destruct (B2 (hs h) t0 t Hh) as [Ha La].
    destruct (B3 (tgt h) (attach (sys h) (hs h) t) t me c k t1 a Ha) as (s' & X1 & X2 & X3); auto.
    { rewrite La. apply Fr. left. reflexivity. }
    rewrite <- Hp, Rr in X1. clear Rr. apply NoDup_cons_iff in N. destruct N as [N1 N2]. cbn [fst snd] in N1.
    destruct (IH _ _ _ _ _ S2 P1 (put hs h s') t1) as (hs' & t' & Y1 & Y2 & Y3 & Y4 & Y5); auto.
    { intro h'. destruct (Nat.eq_dec h' h) as [->|Ne]; [rewrite put_same; eauto|rewrite put_other by auto; auto]. }
    { intros h' me' I. destruct (Nat.eq_dec h' h) as [->|Ne].
      - rewrite put_same, X3, La. intro I'. apply in_app_or in I'. destruct I' as [I'|[<-|[]]].
        + revert I'. apply Fr. right. exact I.
        + contradiction.
      - rewrite put_other by auto. apply Fr. right. exact I. }
    exists hs', t'. split; [|auto]. cbn [objects map fst snd].
    apply (cr_cons sys tgt hs (put hs h s') hs' t h me (constructed c) r (objects prog) t' l0).
    + rewrite put_same. exact X1.
    + intros h' Ne. apply put_other. exact Ne.
    + rewrite put_same, (B1 _ _ X2). exact Y1.
Qed.
End Step.

(** * Fencing *)

Lemma fenced_out : forall b st sa ty key sakey a, is_registered b st = false -> sa <> 0 -> sa <> 6 ->
  action_of sa ty key sakey = Some a -> pr_step b a st = (st, Conflict).
Proof.
  intros b st sa ty key sakey a R N0 N6 A. unfold is_registered in R. unfold action_of in A.
  destruct (Z.eqb_spec sa 0); [contradiction|].
  assert (K : key_of b st = None) by (destruct (key_of b st); [discriminate R|reflexivity]).
  destruct (sa =? 1); [injection A as <-; cbn; unfold with_key; rewrite K; reflexivity|].
  destruct (sa =? 2); [injection A as <-; cbn; unfold with_key; rewrite K; reflexivity|].
  destruct (sa =? 3); [injection A as <-; cbn; unfold with_key; rewrite K; reflexivity|].
  destruct ((sa =? 4) || (sa =? 5)); [injection A as <-; cbn; unfold with_key; rewrite K; reflexivity|].
  destruct (Z.eqb_spec sa 6); [contradiction|discriminate A].
Qed.

Section Fence.
Context (bs capacity : Z) (sense : bytes) (padded : nat -> bool) (b : nat).

Lemma quiet_step : forall h c st d st1 d1 r, ideal_step bs capacity sense padded h c st d st1 d1 r ->
  quiet b (h, c) -> is_registered b st = false -> may_write b st = false ->
  st1 = st /\ (h = b -> d1 = d /\ (changes bs c -> r = Err EAsiSCSI)).
Proof.
  intros h c st d st1 d1 r S Q R W.
  destruct S as [sa key sakey ty a st d F A|alloc st d A N|alloc st d A|c lba n st d Rd Pc F N0 In Sz|c lba data st d Wr Pc F In Sz].
  - destruct Q as (Q & N0 & N6). cbn in Q. subst h. rewrite (fenced_out _ _ _ _ _ _ _ R N0 N6 A). cbn. auto.
  - split; [reflexivity|]. intros _. split; [reflexivity|]. intros (x & y & []).
  - split; [reflexivity|]. intros _. split; [reflexivity|]. intros (x & y & []).
  - split; [reflexivity|]. intros _. split; [reflexivity|]. intros X. exfalso.
    destruct c; try contradiction; destruct X as (x & y & []).
  - split; [reflexivity|]. intros ->. rewrite W. auto.
Qed.

Lemma fenced : forall cmds st d st' d' l, ideal_session bs capacity sense padded cmds st d st' d' l ->
  Forall (quiet b) cmds -> is_registered b st = false -> may_write b st = false ->
  st' = st /\ Forall2 (fun p r => fst p = b -> changes bs (snd p) -> r = Err EAsiSCSI) cmds l /\
  ideal_session bs capacity sense padded (without b cmds) st d st d' (others_results b cmds l).
Proof.
  intros cmds st d st' d' l S. induction S as [st d|h c cmds st d st1 d1 r st' d' l S1 S2 IH]; intros Q R W.
  - split; [reflexivity|]. split; constructor.
  - inversion Q as [|p q Q1 Q2]; subst. destruct (quiet_step _ _ _ _ _ _ _ S1 Q1 R W) as [-> H].
    destruct (IH Q2 R W) as (-> & F & X). split; [reflexivity|]. split.
    + constructor; auto. cbn. intros E. apply H. exact E.
    + unfold others_results, without in *. cbn [filter map combine fst snd].
      destruct (Nat.eqb_spec h b) as [->|Ne]; cbn [negb map snd].
      * destruct (H eq_refl) as [-> _]. exact X.
      * econstructor; eauto.
Qed.
End Fence.

Lemma objects_without : forall b prog, plain_program (without b prog) = without b (plain_program prog).
Proof.
  intros b prog. induction prog as [|[h [me c]] prog IH]; [reflexivity|]. unfold without, plain_program in *.
  cbn [filter map fst snd]. destruct (negb (h =? b)%nat); cbn [map fst snd]; rewrite IH; reflexivity.
Qed.
Lemma without_ids : forall b (prog : program) me, In me (map (fun p => fst (snd p)) (without b prog)) -> In me (map (fun p => fst (snd p)) prog).
Proof.
  intros b prog me I. apply in_map_iff in I. destruct I as (p & E & I). apply filter_In in I.
  apply in_map_iff. exists p. tauto.
Qed.
Lemma without_nodup : forall b (prog : program), NoDup (map (fun p => fst (snd p)) prog) -> NoDup (map (fun p => fst (snd p)) (without b prog)).
Proof.
  intros b prog. induction prog as [|p prog IH]; intros N; cbn; [constructor|]. inversion N as [|x y N1 N2]; subst.
  destruct (negb _); cbn; [constructor|]; auto. intro I. apply N1. eapply without_ids. exact I.
Qed.
Lemma plain_fst : forall prog, map fst (plain_program prog) = map fst prog.
Proof. intros. unfold plain_program. rewrite map_map. reflexivity. Qed.

Section Fencing.
Context {T : Type} (tgt : nat -> target T) (view : T -> pr_state) (content : T -> Z -> bytes).
Context (bs capacity : Z) (sense : bytes).
Context (Hbs : 1 <= bs) (Dev : shared_disk tgt view content bs capacity sense).
Context (sys : nat -> system T) (Four : forall h, one_of_four (sys h)).

Lemma fencing : forall b (prog : program) st d st' d' l,
  ideal_session bs capacity sense (fun h => pads (sys h)) (plain_program prog) st d st' d' l ->
  Forall (quiet b) (plain_program prog) -> is_registered b st = false -> may_write b st = false ->
  pr_ok st -> forall (hs : hosts sys) t, (forall h, exists t0, idle (sys h) (hs h) t0) -> view t = st ->
  same_blocks capacity (content t) d ->
  NoDup (map (fun p => fst (snd p)) prog) ->
  (forall h me, In me (map (fun p => fst (snd p)) prog) -> ~ In me (map fst (cb_log (hs h)))) ->
  exists hs1 t1 hs2 t2,
    cluster_runs sys tgt hs t (objects prog) hs1 t1 l /\
    Forall2 (fun p r => fst p = b -> changes bs (snd p) -> r = Err EAsiSCSI) (plain_program prog) l /\
    cluster_runs sys tgt hs t (objects (without b prog)) hs2 t2 (others_results b prog l) /\
    view t1 = view t /\ view t2 = view t /\ same_blocks capacity (content t1) (content t2).
Proof.
  intros b prog st d st' d' l S Q R W P hs t Hi V E N Fr.
  destruct (fenced _ _ _ _ _ _ _ _ _ _ _ S Q R W) as (-> & F & X).
  destruct (cluster tgt view content bs capacity sense (fun h => pads (sys h)) Hbs Dev sys Four (fun h => eq_refl) prog _ _ _ _ _ S P hs t Hi V E N Fr)
    as (hs1 & t1 & A1 & A2 & A3 & A4 & A5).
  rewrite <- objects_without in X.
  assert (Y : others_results b (plain_program prog) l = others_results b prog l) by (unfold others_results; rewrite plain_fst; reflexivity).
  rewrite Y in X.
  destruct (cluster tgt view content bs capacity sense (fun h => pads (sys h)) Hbs Dev sys Four (fun h => eq_refl) _ _ _ _ _ _ X P hs t Hi V E
     (without_nodup b _ N) (fun h me I => Fr h me (without_ids b _ me I)))
    as (hs2 & t2 & B1 & B2 & B3 & B4 & B5).
  exists hs1, t1, hs2, t2. rewrite V, A3, B3. repeat split; auto. intros k Hk. rewrite A5, B5 by auto. reflexivity.
Qed.
End Fencing.

(** Taking over. *)
Lemma key_gone : forall v (f : nat * Z -> bool) st g r, (forall k, In (v, k) (registered st) -> f (v, k) = false) ->
  is_registered v (PrState g (filter f (registered st)) r) = false.
Proof.
  intros v f st g r H. unfold is_registered, key_of. cbn [registered].
  destruct (find _ _) as [[v' k]|] eqn:F; [|reflexivity]. exfalso.
  apply find_some in F. destruct F as [I E]. cbn in E. apply Nat.eqb_eq in E. subst v'.
  apply filter_In in I. destruct I as [I J]. rewrite (H _ I) in J. discriminate J.
Qed.
Lemma key_stays : forall v (f : nat * Z -> bool) st g r k, pr_ok st -> key_of v st = Some k -> f (v, k) = true ->
  is_registered v (PrState g (filter f (registered st)) r) = true.
Proof.
  intros v f st g r k (_ & N & _) K F. unfold is_registered, key_of. cbn [registered].
  destruct (find (fun p => (fst p =? v)%nat) (filter f (registered st))) as [q|] eqn:E; [reflexivity|]. exfalso.
  unfold key_of in K. destruct (find _ (registered st)) as [[v' k']|] eqn:G; [|discriminate K].
  apply find_some in G. destruct G as [I E']. cbn in E', K. injection K as ->. apply Nat.eqb_eq in E'. subst v'.
  pose proof (find_none _ _ E (v, k)) as X. cbn in X. rewrite Nat.eqb_refl in X.
  assert (Y : true = false); [|discriminate Y]. apply X. apply filter_In. auto.
Qed.

Lemma preempting : forall st h key v victim ty ty0, pr_ok st -> key_of h st = Some key ->
  held st = Some (v, ty0) -> all_registrants ty0 = false -> key_of v st = Some victim -> v <> h -> valid_type ty = true ->
  exists st', pr_step h (Preempt key victim ty) st = (st', Granted) /\
    held st' = Some (h, ty) /\ is_registered h st' = true /\ may_write h st' = true /\ may_read h st' = true /\
    is_registered v st' = false /\ may_write v st' = false /\
    (ty = 1 \/ ty = 3 -> forall v', v' <> h -> may_write v' st' = false).
Proof.
  intros st h key v victim ty ty0 P K H A Kv Ne V.
  cbn [pr_step]. unfold with_key. rewrite K, Z.eqb_refl. unfold preempted, takes_over. rewrite H, A, Kv, Z.eqb_refl, V.
  cbn [negb]. eexists. split; [reflexivity|]. split; [reflexivity|].
  match goal with |- is_registered h ?s = true /\ _ => set (st' := s) end.
  assert (R : is_registered h st' = true).
  { unfold st'. eapply key_stays; eauto. cbn. rewrite Nat.eqb_refl. reflexivity. }
  assert (Rv : is_registered v st' = false).
  { unfold st'. apply key_gone. intros k I. destruct P as (_ & N & _). pose proof (registered_pair _ _ _ N I) as X.
    rewrite Kv in X. injection X as <-. cbn. rewrite (proj2 (Nat.eqb_neq v h)) by auto. rewrite Z.eqb_refl, orb_true_r. reflexivity. }
  assert (O : holds h st' = true).
  { unfold holds. change (held st') with (Some (h, ty)). cbn. destruct (all_registrants ty); [exact R|apply Nat.eqb_refl]. }
  assert (Ov : holds v st' = false).
  { unfold holds. change (held st') with (Some (h, ty)). cbn. destruct (all_registrants ty); [exact Rv|apply Nat.eqb_neq; exact Ne]. }
  split; [exact R|]. unfold may_write, may_read. change (held st') with (Some (h, ty)). cbv iota beta.
  rewrite O, Ov, Rv. cbn [orb]. rewrite andb_false_r. repeat split; auto.
  intros T v' Nv. assert (X : holds v' st' = false).
  { unfold holds. change (held st') with (Some (h, ty)). cbv iota beta. replace (all_registrants ty) with false by (destruct T as [-> | ->]; reflexivity).
    apply Nat.eqb_neq. exact Nv. }
  rewrite X. destruct T as [-> | ->]; reflexivity.
Qed.

(** * A disk exists *)
Lemma reservation_disk_conforms : forall sense bs capacity, 1 <= bs -> conforming_sense sense ->
  shared_disk (reservation_disk sense bs) fst (fun t => ram_content bs (snd t)) bs capacity sense.
Proof.
  intros sense bs capacity B C. constructor.
  - intros t k _. unfold zlen, ram_content. rewrite pad_length. lia.
  - exact C.
  - intros h t cdb data sa ty p a I Pb _ _ A. unfold reservation_disk. rewrite I, Pb, A.
    destruct (pr_step h a (fst t)) as [st v]. exists (st, snd t). cbn. auto.
  - intros h t cdb data alloc I. unfold reservation_disk. rewrite I. cbn [Z.eqb]. exists t. auto.
  - intros h t cdb data alloc I. unfold reservation_disk. rewrite I. cbn [Z.eqb]. exists t. auto.
  - intros h t cdb data lba n f I Pf L N In. unfold reservation_disk. rewrite I. exists t. auto.
  - intros h t cdb data lba n f I Pf L N In D. unfold reservation_disk. rewrite I.
    destruct (bd_write _ _ _ _ (ram_conforms bs capacity B) (snd t) cdb data lba n f I Pf L N In D) as (t' & E & X).
    unfold ram_disk in E. rewrite I in E. injection E as <-.
    destruct (may_write h (fst t)); eexists; (split; [reflexivity|]); split; auto.
Qed.
