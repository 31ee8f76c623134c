(** Lemmas on READ FULL STATUS. *)
From Coq Require Import String ZArith List Bool Lia PeanoNat.
From Verif Require Import Base BaseFacts Gen SpecGen Executer SpecCall
  OsCommon OsLinux OsSolaris OsAix OsWin32 SpecSg SpecDrivers SpecSession SessionFacts
  Instruct InstructFacts Command CdbPrimary SpecDevice SpecCdb CdbLemmas ResponseLemmas CdbResponseFacts CdbPropFacts SpecExecute ExecuteFacts
  SpecPortable PortableFacts SpecReserve ReserveFacts SpecAdaptive AdaptiveFacts DiskFacts SpecStatus.
Import ListNotations.
Local Open Scope string_scope.
Local Open Scope list_scope.
Local Open Scope Z_scope.

Lemma nexus_length : forall x, nexus_ok x -> length (nexus_bytes x) = (24 + length (n_transport x))%nat.
Proof.
  intros x (_ & (A & _) & _ & _ & _ & _ & _ & (B & _) & _). unfold nexus_bytes.
  rewrite !app_length, !be_bytes_length, A, B. cbn [length]. lia.
Qed.
Lemma nexus_bytes_ok : forall x, nexus_ok x -> bytes_ok (nexus_bytes x).
Proof.
  intros x (_ & (_ & A) & H1 & H2 & H3 & H4 & H5 & (_ & B) & _ & _ & C). unfold nexus_bytes.
  repeat first [apply be_bytes_ok | assumption | apply bytes_ok_app; split].
  repeat constructor; unfold byte_ok; lia.
Qed.

Lemma slice_prefix : forall a b (p s t : bytes) q, length p = a -> length s = (b - a)%nat -> (b <= q)%nat -> (a <= b)%nat ->
  slice a b (firstn q (p ++ s ++ t)) = s.
Proof.
  intros a b p s t q A B Q L. unfold slice. rewrite skipn_firstn_comm, skipn_exactly by exact A.
  rewrite firstn_firstn. replace (Nat.min (b - a) (q - a)) with (length s + 0)%nat by lia.
  rewrite firstn_app_2. cbn. apply app_nil_r.
Qed.
Lemma nth_firstn_lt : forall (b : bytes) q i, (i < q)%nat -> nth i (firstn q b) 0 = nth i b 0.
Proof.
  induction b as [|y b IH]; intros q i H; destruct q, i; cbn; auto; try lia. apply IH. lia.
Qed.

Ltac lens := first [lia | rewrite ?app_length, ?be_bytes_length; cbn [length]; lia].

Section Parts.
Context (x : nexus) (more : bytes) (k : nat).
Hypothesis OK : nexus_ok x.
Hypothesis K : (25 <= k)%nat.
Hypothesis M : bytes_ok more.
Let b := firstn k (nexus_bytes x ++ more).

Lemma part_len : (25 <= length b)%nat.
Proof.
  subst b. rewrite firstn_length, app_length, nexus_length by exact OK.
  destruct OK as (_ & _ & _ & _ & _ & _ & _ & _ & _ & (T & _) & _). unfold zlen in T. lia.
Qed.
Lemma part_ok : bytes_ok b.
Proof. apply bytes_ok_firstn, bytes_ok_app. split; [apply nexus_bytes_ok; exact OK|exact M]. Qed.
Lemma part_key : ub 0 8 b = n_key x.
Proof.
  subst b. unfold ub, nexus_bytes. rewrite <- !app_assoc. 
  match goal with |- context [firstn k ?l] => change l with ([] ++ l) end.
  rewrite (slice_prefix 0 8 [] (be_bytes 8 (n_key x))) by lens.
  apply be_val_be_bytes_small. destruct OK as (H & _). exact H.
Qed.
Lemma part_flags : byte_at 12 b = n_holder x + 2 * n_all_ports x + 4 * n_bits x.
Proof.
  unfold byte_at, b. rewrite nth_firstn_lt by lia. unfold nexus_bytes. destruct OK as (_ & (A & _) & _).
  rewrite <- !app_assoc. rewrite app_nth2; rewrite be_bytes_length; [|lia].
  rewrite app_nth2 by lia. rewrite A. reflexivity.
Qed.
Lemma part_type : byte_at 13 b = n_type x + 16 * n_scope x.
Proof.
  unfold byte_at, b. rewrite nth_firstn_lt by lia. unfold nexus_bytes. destruct OK as (_ & (A & _) & _).
  rewrite <- !app_assoc. rewrite app_nth2; rewrite be_bytes_length; [|lia].
  rewrite app_nth2 by lia. rewrite A. reflexivity.
Qed.
Lemma part_port : ub 18 20 b = n_port x.
Proof.
  subst b. unfold ub, nexus_bytes. destruct OK as (_ & (A & _) & _ & _ & _ & _ & _ & (B & _) & P & _).
  rewrite <- !app_assoc. do 3 rewrite app_assoc.
  rewrite (slice_prefix 18 20 _ (be_bytes 2 (n_port x))) by lens.
  apply be_val_be_bytes_small. exact P.
Qed.
Lemma part_size : ub 20 24 b = zlen (n_transport x).
Proof.
  subst b. unfold ub, nexus_bytes. destruct OK as (_ & (A & _) & _ & _ & _ & _ & _ & (B & _) & _ & (T & _)).
  rewrite <- !app_assoc. do 4 rewrite app_assoc.
  rewrite (slice_prefix 20 24 _ (be_bytes 4 (zlen (n_transport x)))) by lens.
  apply be_val_be_bytes_small. lia.
Qed.
Lemma part_id : slice 24 (24 + length (n_transport x)) b = firstn (k - 24) (n_transport x).
Proof.
  subst b. unfold nexus_bytes. destruct OK as (_ & (A & _) & _ & _ & _ & _ & _ & (B & _) & _).
  rewrite <- !app_assoc. do 5 rewrite app_assoc. unfold slice.
  rewrite skipn_firstn_comm, skipn_exactly by (rewrite !app_length, !be_bytes_length, A, B; reflexivity).
  rewrite firstn_firstn. replace (24 + length (n_transport x) - 24)%nat with (length (n_transport x)) by lia.
  destruct (Nat.le_gt_cases (length (n_transport x)) (k - 24)).
  - rewrite Nat.min_l by lia. rewrite firstn_app, firstn_all, Nat.sub_diag. cbn. rewrite app_nil_r, firstn_all2 by lia. reflexivity.
  - rewrite Nat.min_r by lia. rewrite firstn_app. replace (k - 24 - length (n_transport x))%nat with 0%nat by lia.
    cbn. apply app_nil_r.
Qed.
End Parts.

Lemma transport_parsed : forall id, bytes_ok id -> id <> [] -> unpack transport_id_class id = Ok (transport_object id).
Proof.
  intros id O N. destruct id as [|h r]; [contradiction|].
  assert (B : 0 <= h < 256) by (inversion O; subst; assumption).
  unfold unpack, transport_id_class. cbn [c_fields c_name].
  do 3 (uf_step O; replace (1 <=? length (h :: r))%nat with true by reflexivity; cbv iota).
  cbn [unpack_fields]. unfold r_bytes, to_end. cbn [bind]. unfold transport_object, bf, byte_at. cbn [nth hd tl].
  change (Z.of_nat 0) with 0. change (Z.of_nat 4) with 4. change (Z.of_nat 6) with 6. change (Z.of_nat 2) with 2.
  change (2 ^ 0) with 1. change (2 ^ 4) with 16. change (2 ^ 6) with 64. change (2 ^ 2) with 4.
  rewrite Z.div_1_r. rewrite (Z.mod_small (h / 64) 4) by (Z.to_euclidean_division_equations; lia).
  unfold zlen. rewrite Nat2Z.id. unfold slice. cbn [skipn length]. rewrite Nat.sub_succ, Nat.sub_0_r, firstn_all. reflexivity.
Qed.

Lemma element_parsed : forall x more k, nexus_ok x -> (25 <= k)%nat -> bytes_ok more ->
  full_status_element (firstn k (nexus_bytes x ++ more)) =
    Ok (nexus_object x (firstn (k - 24) (n_transport x)), (24 + length (n_transport x))%nat).
Proof.
  intros x more k OK K M. unfold full_status_element, unpack, full_status_descriptor. cbn [c_fields c_name].
  pose proof (part_len x more k OK K) as L. pose proof (part_ok x more k OK M) as O.
  pose proof (part_key x more k OK K) as P1. pose proof (part_flags x more k OK K) as P2.
  pose proof (part_type x more k OK K) as P3. pose proof (part_port x more k OK K) as P4.
  pose proof (part_size x more k OK K) as P5. pose proof (part_id x more k OK K) as P6.
  set (b := firstn k (nexus_bytes x ++ more)) in *. clearbody b.
  do 7 (uf_step O; too_short). cbn [unpack_fields]. unfold r_obj, plus.
  match goal with |- context [int_attr "additional_length" (?a :: ?r)] =>
    change (int_attr "additional_length" (a :: r)) with (ub 20 24 b) end. rewrite P5.
  replace (Z.to_nat (24 + zlen (n_transport x))) with (24 + length (n_transport x))%nat by (unfold zlen; lia).
  rewrite P6. pose proof OK as (_ & _ & H1 & H2 & H3 & H4 & H5 & _ & _ & T & TO).
  rewrite transport_parsed; [|apply bytes_ok_firstn; exact TO|].
  2:{ destruct (n_transport x); [cbn in T; lia|]. destruct (k - 24)%nat eqn:E; [lia|discriminate]. }
  cbn [bind app]. match goal with |- context [int_attr "additional_length" (?a :: ?r)] =>
    change (int_attr "additional_length" (a :: r)) with (zlen (n_transport x)) end.
  unfold zlen at 2. rewrite Nat2Z.id. unfold nexus_object, bf. rewrite P1, P2, P3, P4.
  change (Z.of_nat 0) with 0. change (Z.of_nat 1) with 1. change (Z.of_nat 4) with 4.
  change (2 ^ 0) with 1. change (2 ^ 1) with 2. change (2 ^ 4) with 16. rewrite !Z.div_1_r.
  replace ((n_holder x + 2 * n_all_ports x + 4 * n_bits x) mod 2) with (n_holder x) by (Z.to_euclidean_division_equations; lia).
  replace ((n_holder x + 2 * n_all_ports x + 4 * n_bits x) / 2 mod 2) with (n_all_ports x) by (Z.to_euclidean_division_equations; lia).
  replace ((n_type x + 16 * n_scope x) mod 16) with (n_type x) by (Z.to_euclidean_division_equations; lia).
  replace ((n_type x + 16 * n_scope x) / 16 mod 16) with (n_scope x) by (Z.to_euclidean_division_equations; lia).
  reflexivity.
Qed.

Lemma element_short : forall b, bytes_ok b -> (length b <= 24)%nat -> full_status_element b = Err EInstruct.
Proof.
  intros b O L. unfold full_status_element, unpack, full_status_descriptor. cbn [c_fields c_name].
  do 7 (uf_step O; match goal with |- context [if (?n <=? length b)%nat then _ else _] => destruct (Nat.leb_spec n (length b)); [|reflexivity] end).
  cbn [unpack_fields]. unfold r_obj, plus.
  assert (E : forall n, slice 24 n b = []) by (intro n; unfold slice; rewrite skipn_all2 by lia; apply firstn_nil).
  rewrite E. reflexivity.
Qed.

Lemma all_ok : forall l, Forall nexus_ok l -> bytes_ok (all_bytes l).
Proof.
  intros l F. induction F; [constructor|]. apply bytes_ok_app. split; [apply nexus_bytes_ok; assumption|assumption].
Qed.

Lemma elements_parsed : forall l k fuel, Forall nexus_ok l -> (k <= length (all_bytes l))%nat -> (k <= fuel)%nat ->
  list_all full_status_element fuel (firstn k (all_bytes l)) = visible k l.
Proof.
  induction l as [|x l IH]; intros k fuel F K U.
  - cbn [all_bytes flat_map]. rewrite firstn_nil. destruct fuel, k; reflexivity.
  - pose proof (Forall_inv F) as OK. pose proof (Forall_inv_tail F) as F'.
    pose proof (all_ok l F') as O'. pose proof (nexus_length x OK) as NL.
    assert (Q : all_bytes (x :: l) = nexus_bytes x ++ all_bytes l) by reflexivity. rewrite Q in *. clear Q.
    rewrite app_length in K.
    destruct k as [|k0]; [destruct fuel; reflexivity|]. cbn [visible]. set (k := Datatypes.S k0) in *.
    assert (KP : (0 < k)%nat) by (subst k; lia). clearbody k.
    assert (NE : exists h r, firstn k (nexus_bytes x ++ all_bytes l) = h :: r).
    { destruct (firstn k (nexus_bytes x ++ all_bytes l)) eqn:E; eauto.
      apply (f_equal (@length _)) in E. rewrite firstn_length, app_length in E. cbn in E. lia. }
    destruct fuel as [|fuel]; [lia|].
    assert (ST : list_all full_status_element (Datatypes.S fuel) (firstn k (nexus_bytes x ++ all_bytes l)) =
      do (v, j) <- full_status_element (firstn k (nexus_bytes x ++ all_bytes l));
      match j with 0%nat => Err EFault | _ => do vs <- list_all full_status_element fuel (skipn j (firstn k (nexus_bytes x ++ all_bytes l))); Ok (v :: vs) end).
    { destruct NE as (h & r & ->). reflexivity. }
    rewrite ST. destruct (Nat.leb_spec k 24) as [Le|Gt].
    + rewrite element_short; [reflexivity| |].
      * apply bytes_ok_firstn, bytes_ok_app. split; [apply nexus_bytes_ok; exact OK|exact O'].
      * rewrite firstn_length. lia.
    + rewrite element_parsed by (auto; lia). cbn [bind plus Nat.add].
      change (24 + length (n_transport x))%nat with (24 + length (n_transport x))%nat.
      replace (Datatypes.S (Datatypes.S (Datatypes.S (Datatypes.S (Datatypes.S (Datatypes.S (Datatypes.S (Datatypes.S (Datatypes.S (Datatypes.S (Datatypes.S (Datatypes.S (Datatypes.S (Datatypes.S (Datatypes.S (Datatypes.S (Datatypes.S (Datatypes.S (Datatypes.S (Datatypes.S (Datatypes.S (Datatypes.S (Datatypes.S (Datatypes.S (length (n_transport x))))))))))))))))))))))))))
        with (length (nexus_bytes x)) by (rewrite NL; reflexivity).
      rewrite skipn_firstn_comm, skipn_exactly by reflexivity. rewrite IH by (auto; lia).
      destruct (visible (k - length (nexus_bytes x)) l); reflexivity.
Qed.

Lemma status_length : forall g l, length (status_data g l) = (8 + length (all_bytes l))%nat.
Proof. intros. unfold status_data. rewrite !app_length, !be_bytes_length. lia. Qed.
Lemma status_data_ok : forall g l, status_ok g l -> bytes_ok (status_data g l).
Proof.
  intros g l (_ & F & _). unfold status_data. repeat first [apply be_bytes_ok | apply all_ok; exact F | apply bytes_ok_app; split].
Qed.

Lemma visible_min : forall l k, Forall nexus_ok l -> (length (all_bytes l) <= k)%nat ->
  visible k l = Ok (map (fun x => nexus_object x (n_transport x)) l).
Proof.
  induction l as [|x l IH]; intros k F K; [destruct k; reflexivity|].
  pose proof (Forall_inv F) as OK. pose proof (nexus_length x OK) as NL.
  assert (T : (1 <= length (n_transport x))%nat) by (destruct OK as (_ & _ & _ & _ & _ & _ & _ & _ & _ & (T & _) & _); unfold zlen in T; lia).
  assert (Q : length (all_bytes (x :: l)) = (length (nexus_bytes x) + length (all_bytes l))%nat) by apply app_length.
  destruct k as [|k0]; [lia|]. cbn [visible map]. set (k := Datatypes.S k0) in *. clearbody k.
  replace (k <=? 24)%nat with false by (symmetry; apply Nat.leb_gt; lia).
  rewrite IH by (try lia; exact (Forall_inv_tail F)). rewrite firstn_all2 by lia. reflexivity.
Qed.

Lemma status_parsed : forall alloc g l rest n, 8 <= alloc -> status_ok g l -> bytes_ok rest ->
  yields (pr_in 3 alloc) (Some (firstn n (status_data g l ++ rest))) = status_read n g l.
Proof.
  intros alloc g l rest n A OK R. pose proof OK as (G & F & N). unfold yields, pr_in, assert_.
  replace (8 <=? alloc) with true by (symmetry; apply Z.leb_le; lia). cbn [bind o_finish o_attrs].
  change (attr "service_action" _) with 3. cbn [pr_in_response parsed].
  assert (OB : bytes_ok (firstn n (status_data g l ++ rest))).
  { apply bytes_ok_firstn, bytes_ok_app. split; [apply status_data_ok; exact OK|exact R]. }
  pose proof (status_length g l) as SL.
  assert (LB : length (firstn n (status_data g l ++ rest)) = Nat.min n (8 + length (all_bytes l) + length rest)).
  { rewrite firstn_length, app_length, SL. reflexivity. }
  unfold status_read. destruct (Nat.ltb_spec n 8) as [Lt|Ge].
  - set (b := firstn n (status_data g l ++ rest)) in *. unfold unpack, full_status_response. cbn [c_fields c_name].
    do 2 (uf_step OB; match goal with |- context [if (?n <=? length b)%nat then _ else _] => destruct (Nat.leb_spec n (length b)); [|reflexivity] end).
    lia.
  - assert (B1 : ub 0 4 (firstn n (status_data g l ++ rest)) = g).
    { unfold ub, status_data. rewrite <- !app_assoc.
      match goal with |- context [firstn n ?l] => change l with ([] ++ l) end.
      rewrite (slice_prefix 0 4 [] (be_bytes 4 g)) by lens. apply be_val_be_bytes_small. exact G. }
    assert (B2 : ub 4 8 (firstn n (status_data g l ++ rest)) = zlen (all_bytes l)).
    { unfold ub, status_data. rewrite <- !app_assoc.
      rewrite (slice_prefix 4 8 (be_bytes 4 g) (be_bytes 4 (zlen (all_bytes l)))) by lens.
      apply be_val_be_bytes_small. unfold zlen in *. lia. }
    assert (B3 : slice 8 (8 + length (all_bytes l)) (firstn n (status_data g l ++ rest)) =
      firstn (Nat.min (n - 8) (length (all_bytes l))) (all_bytes l)).
    { unfold status_data, slice. rewrite <- !app_assoc. rewrite app_assoc.
      rewrite skipn_firstn_comm, skipn_exactly by (rewrite app_length, !be_bytes_length; reflexivity).
      rewrite firstn_firstn. replace (8 + length (all_bytes l) - 8)%nat with (length (all_bytes l)) by lia.
      rewrite Nat.min_comm. rewrite firstn_app.
      replace (Nat.min (n - 8) (length (all_bytes l)) - length (all_bytes l))%nat with 0%nat by lia. cbn [firstn].
      apply app_nil_r. }
    set (b := firstn n (status_data g l ++ rest)) in *. unfold unpack, full_status_response. cbn [c_fields c_name].
    do 2 (uf_step OB; too_short). cbn [unpack_fields]. unfold r_if, r_list, plus. cbv beta.
    change (int_attr "additional_length" _) with (ub 4 8 b). rewrite B1, B2.
    destruct l as [|x l].
    + reflexivity.
    + assert (P : 0 <? zlen (all_bytes (x :: l)) = true).
      { apply Z.ltb_lt. unfold zlen. pose proof (nexus_length x (Forall_inv F)) as NL.
        assert (Q : length (all_bytes (x :: l)) = (length (nexus_bytes x) + length (all_bytes l))%nat) by apply app_length. lia. }
      rewrite P. replace (Z.to_nat (8 + zlen (all_bytes (x :: l)))) with (8 + length (all_bytes (x :: l)))%nat by (unfold zlen; lia).
      rewrite B3. unfold read_list. rewrite elements_parsed; [|exact F|lia|rewrite firstn_length; lia].
      replace (visible (Nat.min (n - 8) (length (all_bytes (x :: l)))) (x :: l)) with (visible (n - 8) (x :: l)).
      * destruct (visible (n - 8) (x :: l)); reflexivity.
      * destruct (Nat.le_gt_cases (n - 8) (length (all_bytes (x :: l)))); [rewrite Nat.min_l by lia; reflexivity|].
        rewrite Nat.min_r by lia. rewrite !visible_min by (auto; lia). reflexivity.
Qed.

Lemma status_whole : forall g l n, status_ok g l -> (8 + length (all_bytes l) <= n)%nat -> status_read n g l = Ok (whole_status g l).
Proof.
  intros g l n (_ & F & _) N. unfold status_read, whole_status.
  replace (n <? 8)%nat with false by (symmetry; apply Nat.ltb_ge; lia).
  destruct l as [|x l]; [reflexivity|]. rewrite visible_min by (auto; lia). reflexivity.
Qed.

Section Runs.
Context {T : Type} (sys : system T) (tgt : target T).

Lemma status_seen : forall padded g l cdb alloc, status_ok g l -> 8 <= alloc ->
  seen padded (PrIn 3 alloc) (ReadCmd cdb alloc) (good (firstn (Z.to_nat alloc) (status_data g l))) =
    status_read (Z.to_nat alloc) g l.
Proof.
  intros padded g l cdb alloc OK A. rewrite seen_nice.
  destruct (got_data padded cdb alloc (status_data g l)) as (m & -> & _); [lia|unfold zlen; rewrite status_length; lia|].
  cbn [constructed]. apply status_parsed; auto. apply bytes_ok_zeros.
Qed.

Lemma status_run : forall g l alloc t s, one_of_four sys -> idle sys s t -> reports_status tgt g l -> 8 <= alloc < 2 ^ 16 ->
  exists s' t', sync_wait_ends (coroutine (os_of sys tgt) (Do (PrIn 3 alloc) finish)) s s'
      (shown (status_read (Z.to_nat alloc) g l)) /\ idle sys s' t'.
Proof.
  intros g l alloc t s F Hi [OK Ans] A.
  destruct (pr_in_issued 3 alloc ltac:(lia) A) as (cdb & J & X). destruct (Ans t cdb [] alloc X) as (t1 & E1).
  assert (D : does tgt (pads sys) t (Do (PrIn 3 alloc) finish) t1 (status_read (Z.to_nat alloc) g l)).
  { eapply does_command; [exact Logic.I|exact J|cbn [moderate]; lia|exact E1|apply ordinary_good|].
    rewrite status_seen by (auto; lia). apply does_finish. }
  destruct (adaptive _ _ _ _ _ _ _ _ F D Hi) as (s' & E & I'). eauto.
Qed.

Lemma eight : forall g l, status_read 8 g l = Ok (status_object g l (match l with [] => PNone | _ => PList [] end)).
Proof. intros g l. destruct l; reflexivity. Qed.

Lemma all_positive : forall g x l, status_ok g (x :: l) -> 0 < zlen (all_bytes (x :: l)).
Proof.
  intros g x l (_ & F & _). unfold zlen. pose proof (nexus_length x (Forall_inv F)) as NL.
  assert (Q : length (all_bytes (x :: l)) = (length (nexus_bytes x) + length (all_bytes l))%nat) by apply app_length. lia.
Qed.

Lemma fetch_does : forall padded g l t, reports_status tgt g l -> 8 + zlen (all_bytes l) < 2 ^ 16 ->
  exists t', does tgt padded t fetch_status t' (Ok (whole_status g l)).
Proof.
  intros padded g l t [OK Ans] S. unfold fetch_status.
  destruct (pr_in_issued 3 8 ltac:(lia) ltac:(lia)) as (cdb & J & X). destruct (Ans t cdb [] 8 X) as (t1 & E1).
  pose proof (status_seen padded g l cdb 8 OK ltac:(lia)) as V.
  change (Z.to_nat 8) with 8%nat in V, E1. rewrite eight in V.
  destruct l as [|x l].
  - exists t1. eapply does_command; [exact Logic.I|exact J|cbn [moderate]; lia|exact E1|apply ordinary_good|].
    rewrite V. cbn [announced_length]. change (int_attr "additional_length" _) with 0. cbn [Z.eqb]. constructor.
  - pose proof (all_positive g x l OK) as P.
    destruct (pr_in_issued 3 (8 + zlen (all_bytes (x :: l))) ltac:(lia) ltac:(lia)) as (cdb2 & J2 & X2).
    destruct (Ans t1 cdb2 [] _ X2) as (t2 & E2). exists t2.
    eapply does_command; [exact Logic.I|exact J|cbn [moderate]; lia|exact E1|apply ordinary_good|].
    rewrite V. unfold announced_length, status_object.
    match goal with |- context [int_attr "additional_length" ?r] => change (int_attr "additional_length" r) with (zlen (all_bytes (x :: l))) end.
    destruct (Z.eqb_spec (zlen (all_bytes (x :: l))) 0) as [Z0|_]; [lia|].
    eapply does_command; [exact Logic.I|exact J2|cbn [moderate]; lia|exact E2|apply ordinary_good|].
    rewrite (status_seen padded g (x :: l) cdb2 (8 + zlen (all_bytes (x :: l))) OK) by lia.
    rewrite status_whole by (auto; unfold zlen; lia). constructor.
Qed.

Lemma fetch_status_run : forall g l t s, one_of_four sys -> idle sys s t -> reports_status tgt g l -> 8 + zlen (all_bytes l) < 2 ^ 16 ->
  exists s' t', sync_wait_ends (coroutine (os_of sys tgt) fetch_status) s s' (shown (Ok (whole_status g l))) /\ idle sys s' t'.
Proof.
  intros g l t s F Hi R S. destruct (fetch_does (pads sys) g l t R S) as (t' & D).
  destruct (adaptive _ _ _ _ _ _ _ _ F D Hi) as (s' & E & I'). eauto.
Qed.

(** A list that does not fit into the 16-bit allocation length cannot be fetched whole. *)
Lemma fetch_long_run : forall g l t s, one_of_four sys -> idle sys s t -> reports_status tgt g l -> 2 ^ 16 <= 8 + zlen (all_bytes l) ->
  exists s' e cdb, interpret cdb = Some (OpPrIn 3 8) /\
    sync_wait_ends (coroutine (os_of sys tgt) fetch_status) s s' (shown (Err e)) /\ idle sys s' (fst (tgt t cdb [])).
Proof.
  intros g l t s F Hi [OK Ans] S.
  destruct (pr_in_issued 3 8 ltac:(lia) ltac:(lia)) as (cdb & J & X). destruct (Ans t cdb [] 8 X) as (t1 & E1).
  pose proof (status_seen (pads sys) g l cdb 8 OK ltac:(lia)) as V.
  destruct (pr_in_too_long 3 _ S) as (e & J2).
  change (Z.to_nat 8) with 8%nat in V, E1. rewrite eight in V.
  assert (D : does tgt (pads sys) t fetch_status t1 (Err e)).
  { unfold fetch_status. eapply does_command; [exact Logic.I|exact J|cbn [moderate]; lia|exact E1|apply ordinary_good|].
    rewrite V. unfold announced_length, status_object.
    match goal with |- context [int_attr "additional_length" ?r] => change (int_attr "additional_length" r) with (zlen (all_bytes l)) end.
    destruct (Z.eqb_spec (zlen (all_bytes l)) 0) as [Z0|_]; [lia|].
    eapply does_refused; [exact J2|constructor]. }
  destruct (adaptive _ _ _ _ _ _ _ _ F D Hi) as (s' & E & I'). exists s', e, cdb. split; [exact X|]. rewrite E1. auto.
Qed.
End Runs.

(** What is seen of a cut list, read off [visible]. *)
Lemma visible_boundary : forall l1 l2, Forall nexus_ok (l1 ++ l2) ->
  visible (length (all_bytes l1)) (l1 ++ l2) = Ok (map (fun x => nexus_object x (n_transport x)) l1).
Proof.
  induction l1 as [|x l1 IH]; intros l2 F.
  - cbn. destruct l2; reflexivity.
  - pose proof (Forall_inv F) as OK. pose proof (nexus_length x OK) as NL.
    assert (T : (1 <= length (n_transport x))%nat) by (destruct OK as (_ & _ & _ & _ & _ & _ & _ & _ & _ & (T & _) & _); unfold zlen in T; lia).
    assert (Q : length (all_bytes (x :: l1)) = (length (nexus_bytes x) + length (all_bytes l1))%nat) by apply app_length.
    rewrite Q. destruct (length (nexus_bytes x) + length (all_bytes l1))%nat as [|k0] eqn:E; [lia|].
    cbn [app visible map]. rewrite <- E.
    replace (length (nexus_bytes x) + length (all_bytes l1) <=? 24)%nat with false by (symmetry; apply Nat.leb_gt; lia).
    replace (length (nexus_bytes x) + length (all_bytes l1) - length (nexus_bytes x))%nat with (length (all_bytes l1)) by lia.
    rewrite IH by exact (Forall_inv_tail F). rewrite firstn_all2 by lia. reflexivity.
Qed.
Lemma visible_cut : forall l1 x l2 j, Forall nexus_ok (l1 ++ x :: l2) -> (0 < j <= length (nexus_bytes x))%nat ->
  visible (length (all_bytes l1) + j) (l1 ++ x :: l2) =
  if (j <=? 24)%nat then Err EInstruct
  else Ok (map (fun y => nexus_object y (n_transport y)) l1 ++ [nexus_object x (firstn (j - 24) (n_transport x))]).
Proof.
  induction l1 as [|y l1 IH]; intros x l2 j F J.
  - cbn [all_bytes flat_map length Nat.add app map]. destruct j as [|j0]; [lia|]. cbn [visible].
    destruct (Datatypes.S j0 <=? 24)%nat; [reflexivity|].
    replace (Datatypes.S j0 - length (nexus_bytes x))%nat with 0%nat by lia. destruct l2; reflexivity.
  - pose proof (Forall_inv F) as OK. pose proof (nexus_length y OK) as NL.
    assert (T : (1 <= length (n_transport y))%nat) by (destruct OK as (_ & _ & _ & _ & _ & _ & _ & _ & _ & (T & _) & _); unfold zlen in T; lia).
    assert (Q : length (all_bytes (y :: l1)) = (length (nexus_bytes y) + length (all_bytes l1))%nat) by apply app_length.
    rewrite Q. destruct (length (nexus_bytes y) + length (all_bytes l1) + j)%nat as [|k0] eqn:E; [lia|].
    cbn [app visible map]. rewrite <- E.
    replace (length (nexus_bytes y) + length (all_bytes l1) + j <=? 24)%nat with false by (symmetry; apply Nat.leb_gt; lia).
    replace (length (nexus_bytes y) + length (all_bytes l1) + j - length (nexus_bytes y))%nat with (length (all_bytes l1) + j)%nat by lia.
    rewrite (IH x l2 j (Forall_inv_tail F) J). destruct (j <=? 24)%nat; [reflexivity|]. rewrite firstn_all2 by lia. reflexivity.
Qed.
