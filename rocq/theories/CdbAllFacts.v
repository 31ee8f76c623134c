(** All command classes together: what is issued, and the shape of every CDB. *)
From Coq Require Import String ZArith List Bool Lia.
From Verif Require Import Base BaseFacts OsCommon Instruct InstructFacts Command CdbBlock CdbPrimary SpecDevice SpecCdb
  CdbLemmas CdbBlockFacts CdbSixFacts UnmapFacts CdbPrimaryFacts CdbReserveFacts CdbPersistFacts.
Import ListNotations.
Local Open Scope string_scope.
Local Open Scope Z_scope.

Lemma asks_issued : forall r ok n op, asks r ok n op ->
  match r with Ok k => ok /\ interpret (command_of k) = Some op | Err _ => ~ ok end.
Proof. intros [[]|] ok n op H; cbn in *; tauto. Qed.
Lemma tells_issued : forall r ok d op, tells r ok d op ->
  match r with Ok k => ok /\ interpret (command_of k) = Some op | Err _ => ~ ok end.
Proof. intros [[]|] ok n op H; cbn in *; tauto. Qed.

Lemma with_settings_request : forall kw r,
  (do o <- with_settings kw r; request o) = (do o <- r; request (assigned kw o)).
Proof. intros kw [o|e]; reflexivity. Qed.

Theorem issued_spec : forall c, proper c ->
  match issued c with
  | Ok k => arguments_fit c /\ interpret (command_of k) = Some (meaning c)
  | Err _ => ~ arguments_fit c
  end.
Proof.
  intros c P. destruct c; cbn [proper] in P; unfold issued; cbn [constructed arguments_fit meaning];
    rewrite ?with_settings_request.
  - eapply asks_issued; apply read6_spec.
  - eapply asks_issued; apply read10_spec; assumption.
  - eapply asks_issued; apply read12_spec; assumption.
  - eapply asks_issued; apply read16_spec; assumption.
  - eapply tells_issued; apply write6_spec; assumption.
  - eapply tells_issued; apply write10_spec; tauto.
  - eapply tells_issued; apply write12_spec; tauto.
  - eapply tells_issued; apply write16_spec; tauto.
  - eapply tells_issued; apply write_same10_spec; assumption.
  - eapply tells_issued; apply write_same16_spec; assumption.
  - eapply tells_issued; apply compare_and_write_spec; tauto.
  - pose proof (unmap_spec ranges kw P) as H.
    destruct (do o <- unmap ranges; request (assigned kw o)) as [[|]|]; cbn [command_of]; try tauto.
    destruct H as [F [I [L _]]]. rewrite L in I. auto.
  - eapply asks_issued; apply read_capacity10_spec.
  - eapply asks_issued; apply read_capacity16_spec.
  - eapply asks_issued; apply test_unit_ready_spec.
  - eapply asks_issued; apply report_luns_spec.
  - eapply asks_issued; apply rtpg_spec.
  - eapply asks_issued; apply log_sense_spec; assumption.
  - eapply asks_issued; apply receive_copy_spec.
  - eapply asks_issued; apply receive_diagnostic_spec.
  - eapply asks_issued; apply inquiry_spec.
  - eapply tells_issued; apply reserve6_spec.
  - eapply tells_issued; apply release6_spec.
  - eapply tells_issued; apply reserve10_spec.
  - eapply tells_issued; apply release10_spec.
  - eapply asks_issued; apply pr_in_spec.
  - pose proof (pr_out_basic_spec sa key sakey pr_type kw (proj1 P) (proj1 (proj2 P)) (proj2 (proj2 P))) as H.
    destruct (do o <- pr_out sa key sakey pr_type kw None; request o) as [[|]|]; cbn [command_of]; try tauto.
    destruct H as [F [I [L _]]]. rewrite L in I. auto.
  - pose proof (pr_out_move_spec key sakey pr_type kw t P) as H.
    destruct (do o <- pr_out 7 key sakey pr_type kw (Some t); request o) as [[|]|]; cbn [command_of]; try tauto.
    destruct H as [F [I [L _]]]. rewrite L in I. auto.
Qed.

(** * The shape of CDBs, whatever attributes are set *)

(** The operation code is fixed, as two bit fields or as a byte, or it is the default of an
    attribute operation_code. *)
Definition fixed_opcode (n : nat) (fs : list field) (op : Z) : bool :=
  separate n fs && Nat.ltb 0 n &&
  match fs with
  | Field _ ps _ (Fixed v) :: r =>
      (if list_eq_dec Nat.eq_dec ps (bits_of 0 0 5)
       then match r with
            | Field _ qs _ (Fixed w) :: _ =>
                (if list_eq_dec Nat.eq_dec qs (bits_of 0 5 8) then true else false) &&
                (0 <=? v) && (v <? 32) && (0 <=? w) && (w <? 8) && (v + 32 * w =? op)
            | _ => false
            end
       else if list_eq_dec Nat.eq_dec ps (bytes_of 0 1) then (0 <=? v) && (v <? 256) && (v =? op) else false)
  | Field nm ps _ (Default v) :: r =>
      if list_eq_dec Nat.eq_dec ps (bytes_of 0 1)
      then (0 <=? v) && (v <? 256) && (v =? op) && String.eqb nm "operation_code" else false
  | _ => false
  end.

Lemma fixed_opcode_spec : forall n fs op a b, fixed_opcode n fs op = true -> lookup "operation_code" a = None ->
  pack_fields n fs a = Ok b ->
  length b = n /\ byte_at 0 b = op.
Proof.
  intros n fs op a b H NO P. rewrite pack_fields_spec in P. destruct (packable fs a); [|discriminate].
  injection P as <-. split; [apply image_length|].
  unfold fixed_opcode in H. apply andb_true_iff in H. destruct H as [H E]. apply andb_true_iff in H. destruct H as [S N].
  apply Nat.ltb_lt in N. destruct fs as [|[nm ps sg [|v|v]] r]; try discriminate E.
  { destruct (list_eq_dec Nat.eq_dec ps (bytes_of 0 1)) as [->|_]; [|discriminate E].
    rewrite !andb_true_iff, !Z.leb_le, !Z.ltb_lt, Z.eqb_eq, String.eqb_eq in E. destruct E as [E ->].
    rewrite byte0_ub by (first [apply image_ok | rewrite image_length; exact N]).
    rewrite (read_ub n _ a S (Field "operation_code" (bytes_of 0 1) sg (Default v)) 0 1) by (first [left; reflexivity | reflexivity | lia]).
    unfold code, field_value. cbn [f_init f_bits f_name]. rewrite NO. change (2 ^ width (bytes_of 0 1)) with 256.
    rewrite Z.mod_small by lia. lia. }
  destruct (list_eq_dec Nat.eq_dec ps (bits_of 0 0 5)) as [->|_].
  - destruct r as [|[nm2 qs sg2 [|?|w]] r]; try discriminate E.
    destruct (list_eq_dec Nat.eq_dec qs (bits_of 0 5 8)) as [->|_]; [|discriminate E]. cbn [andb] in E.
    rewrite !andb_true_iff, !Z.leb_le, !Z.ltb_lt, Z.eqb_eq in E.
    rewrite byte0_bits by apply image_ok.
    rewrite (read_bf n _ a S (Field nm (bits_of 0 0 5) sg (Fixed v)) 0 0 5) by (first [left; reflexivity | reflexivity | lia]).
    rewrite (read_bf n _ a S (Field nm2 (bits_of 0 5 8) sg2 (Fixed w)) 0 5 3) by (first [right; left; reflexivity | reflexivity | lia]).
    unfold code, field_value. cbn [f_init f_bits].
    change (2 ^ width (bits_of 0 0 5)) with 32. change (2 ^ width (bits_of 0 5 8)) with 8.
    rewrite !Z.mod_small by lia. lia.
  - destruct (list_eq_dec Nat.eq_dec ps (bytes_of 0 1)) as [->|_]; [|discriminate E].
    rewrite !andb_true_iff, !Z.leb_le, !Z.ltb_lt, Z.eqb_eq in E.
    rewrite byte0_ub by (first [apply image_ok | rewrite image_length; exact N]).
    rewrite (read_ub n _ a S (Field nm (bytes_of 0 1) sg (Fixed v)) 0 1) by (first [left; reflexivity | reflexivity | lia]).
    unfold code, field_value. cbn [f_init f_bits]. change (2 ^ width (bytes_of 0 1)) with 256.
    rewrite Z.mod_small by lia. lia.
Qed.

Lemma struct_shape : forall l a b op, lookup "operation_code" a = None -> pack_struct l a = Ok b ->
  fixed_opcode (struct_size l) (struct_fields 0 l) op = true -> Z.of_nat (struct_size l) = cdb_length op ->
  zlen b = cdb_length op /\ byte_at 0 b = op.
Proof.
  intros l a b op NO P F L. destruct (fixed_opcode_spec _ _ _ _ _ F NO P) as [N B]. unfold zlen. rewrite N. auto.
Qed.
Lemma buffer_shape : forall l a b op, lookup "operation_code" a = None -> pack_buffer l a = Ok b ->
  fixed_opcode (buffer_size l) l op = true -> Z.of_nat (buffer_size l) = cdb_length op ->
  zlen b = cdb_length op /\ byte_at 0 b = op.
Proof.
  intros l a b op NO P F L. destruct (fixed_opcode_spec _ _ _ _ _ F NO P) as [N B]. unfold zlen. rewrite N. auto.
Qed.

(** What is known of an object: how it makes its CDB, and that this is the CDB sent. *)
Definition makes (o : cdb_object) (d : attributes -> result bytes) : Prop :=
  o_datagram o = d /\ forall a b, command_of (o_request o a b) = b.

Lemma bind_ok : forall A B (r : result A) (k : A -> result B) b, bind r k = Ok b -> exists a, r = Ok a /\ k a = Ok b.
Proof. intros A B [a|e] k b H; [exists a; auto|discriminate]. Qed.

Ltac inv_binds H :=
  repeat first
  [ match type of H with
    | bind _ _ = Ok _ => apply bind_ok in H; let x := fresh "x" in let E := fresh "E" in destruct H as [x [E H]]
    | (let _ := _ in _) = Ok _ => cbv zeta in H
    | (if ?b then _ else _) = Ok _ => destruct b
    | match ?b with _ => _ end = Ok _ => destruct b
    end
  | discriminate H ].

Lemma object_makes : forall c kw o, constructed c = Ok o ->
  exists d, makes (assigned kw o) d /\
    forall a b, lookup "operation_code" a = None -> d a = Ok b -> zlen b = cdb_length (operation_code c) /\ byte_at 0 b = operation_code c.
Proof.
  intros c kw o H. destruct c; cbn [constructed operation_code] in *; unfold with_settings in H;
    first
    [ apply bind_ok in H; destruct H as [x [E H]]; injection H as <-;
      unfold read10, read12, read16, write10, write12, write16, write_same10, write_same16, compare_and_write,
        unmap, log_sense in E; inv_binds E; try (injection E as <-)
    | unfold read6, write6, read_capacity10, read_capacity16, test_unit_ready, report_luns, rtpg, receive_copy,
        receive_diagnostic, inquiry, reserve6, release6, reserve10, release10, pr_in, pr_out in H; inv_binds H;
      try (injection H as <-) ];
    (eexists; split; [split; [cbn [assigned o_datagram]; reflexivity|intros a b; cbn [assigned o_request]; try reflexivity]|
       intros a b NO D; cbv beta in D; repeat (lazymatch type of D with bind _ _ = Ok _ => apply bind_ok in D; destruct D as [? [_ D]] end);
       first [ eapply struct_shape; [exact NO|exact D|vm_compute; reflexivity|vm_compute; reflexivity]
             | eapply buffer_shape; [exact NO|exact D|vm_compute; reflexivity|vm_compute; reflexivity] | idtac ]]).
Qed.

Theorem cdb_shape : forall c kw o k, constructed c = Ok o ->
  lookup "operation_code" (o_attrs (assigned kw o)) = None -> request (assigned kw o) = Ok k ->
  byte_at 0 (command_of k) = operation_code c /\ zlen (command_of k) = cdb_length (operation_code c).
Proof.
  intros c kw o k C NO R. destruct (object_makes c kw o C) as [d [[D1 D2] S]].
  unfold request in R. rewrite D1 in R. apply bind_ok in R. destruct R as [b [B R]]. injection R as <-.
  change (o_request o) with (o_request (assigned kw o)). rewrite D2. destruct (S _ _ NO B). auto.
Qed.

Lemma opcode_split : forall op, 0 <= op < 256 -> pack_struct [opcode op] [] = Ok [op].
Proof.
  intros op H. unfold pack_struct. rewrite pack_fields_spec.
  assert (A : 0 <= Z.land op 31 < 32 /\ 0 <= Z.shiftr op 5 < 8 /\ Z.land op 31 + 32 * Z.shiftr op 5 = op).
  { change 31 with (Z.ones 5). rewrite Z.land_ones by lia. rewrite Z.shiftr_div_pow2 by lia.
    change (2 ^ 5) with 32. Z.to_euclidean_division_equations. lia. }
  assert (P : packable (struct_fields 0 [opcode op]) [] = true).
  { unfold packable. cbn. unfold in_range. cbn.
    change (Z.div2 (Z.div2 (Z.div2 (Z.div2 (Z.div2 op))))) with (Z.shiftr op 5). rewrite !andb_true_iff, !Z.leb_le, !Z.ltb_lt. lia. }
  rewrite P. f_equal.
  assert (F : fixed_opcode (struct_size [opcode op]) (struct_fields 0 [opcode op]) op = true).
  { unfold fixed_opcode. cbn. change (Z.div2 (Z.div2 (Z.div2 (Z.div2 (Z.div2 op))))) with (Z.shiftr op 5).
    replace (Z.land op 31 + 32 * Z.shiftr op 5) with op by lia. rewrite !andb_true_iff, !Z.leb_le, !Z.ltb_lt, !Z.eqb_eq. repeat split; try lia; try reflexivity.
    destruct A as [_ [_ A]]. exact A. }
  assert (E : pack_fields (struct_size [opcode op]) (struct_fields 0 [opcode op]) [] =
              Ok (image (struct_size [opcode op]) (struct_fields 0 [opcode op]) []))
    by (rewrite pack_fields_spec, P; reflexivity).
  destruct (fixed_opcode_spec _ _ _ [] _ F eq_refl E) as [L B].
  clear E. revert L B. generalize (image (struct_size [opcode op]) (struct_fields 0 [opcode op]) []).
  intros l L B. change (length l = 1%nat) in L. destruct l as [|y [|z r]]; try discriminate L.
  change (y = op) in B. rewrite B. reflexivity.
Qed.

Lemma group_table : forall op, 0 <= op < 256 -> command_size_by_group_code (Z.shiftr op 5) = cdb_length op.
Proof.
  intros op H. rewrite Z.shiftr_div_pow2 by lia. change (2 ^ 5) with 32. unfold cdb_length, command_size_by_group_code.
  destruct (op / 32) as [|p|p]; try reflexivity. do 3 (destruct p as [p|p|]; try reflexivity).
Qed.
