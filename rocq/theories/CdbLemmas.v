(** Lemmas and tactics for the command classes: from field tables to what the device
    reads. *)
From Coq Require Import String ZArith List Bool Lia.
From Verif Require Import Base BaseFacts OsCommon Instruct InstructFacts Command SpecDevice.
Import ListNotations.
Local Open Scope string_scope.
Local Open Scope Z_scope.

Lemma lookup_app : forall A n (a b : list (string * A)),
  lookup n (a ++ b)%list = match lookup n a with Some v => Some v | None => lookup n b end.
Proof.
  induction a as [|[m v] r IH]; intros b; [reflexivity|]. cbn. destruct (String.eqb n m); auto.
Qed.

Lemma only_none : forall names n kw, only_sets names kw -> existsb (String.eqb n) names = false -> lookup n kw = None.
Proof.
  intros names n kw H E. induction H as [|[m v] r I F IH]; [reflexivity|]. cbn in *.
  destruct (String.eqb n m) eqn:X; [|exact IH]. exfalso. apply String.eqb_eq in X. subst m.
  assert (Y : existsb (String.eqb n) names = true)
    by (apply existsb_exists; exists n; split; [exact I|apply String.eqb_refl]).
  congruence.
Qed.

Lemma field_value_app : forall n ps s i kw base,
  field_value (Field n ps s i) (kw ++ base)%list =
  match i with
  | Fixed v => Ok v
  | Default d => Ok (match lookup n kw with Some v => v | None =>
                       match lookup n base with Some v => v | None => d end end)
  | Required => match lookup n kw with Some v => Ok v | None =>
                  match lookup n base with Some v => Ok v | None => Err EInstruct end end
  end.
Proof.
  intros. unfold field_value. cbn [f_init f_name]. rewrite lookup_app.
  destruct i; [| |reflexivity]; destruct (lookup n kw); try reflexivity; destruct (lookup n base); reflexivity.
Qed.

(** One field of [packable]. *)
Definition fits1 (f : field) (a : attributes) : bool :=
  match field_value f a with Ok v => in_range (f_signed f) (f_bits f) v | Err _ => false end.
Lemma packable_fits1 : forall fs a, packable fs a = forallb (fun f => fits1 f a) fs.
Proof. reflexivity. Qed.

Lemma code_value : forall f a v, field_value f a = Ok v -> 0 <= v < 2 ^ width (f_bits f) -> code f a = v.
Proof. intros f a v H R. unfold code. rewrite H. apply Z.mod_small. exact R. Qed.

Section Read.
Variables (n : nat) (fs : list field) (a : attributes).
Hypothesis SEP : separate n fs = true.

Lemma read_ub : forall f p q, In f fs -> f_bits f = bytes_of p q -> (p <= q)%nat -> (q <= n)%nat ->
  ub p q (image n fs a) = code f a.
Proof.
  intros f p q I B H L. unfold ub.
  rewrite <- bytes_of_read by (auto using image_ok; rewrite image_length; exact L).
  rewrite <- B. apply image_read; assumption.
Qed.

Lemma read_bf : forall f k lo w, In f fs -> f_bits f = bits_of k lo (lo + w) -> (lo + w <= 8)%nat ->
  bf k lo w (image n fs a) = code f a.
Proof.
  intros f k lo w I B H. unfold bf.
  replace (Z.of_nat w) with (Z.of_nat (lo + w - lo)) by lia.
  rewrite <- bits_of_read by (auto using image_ok; lia). rewrite <- B. apply image_read; assumption.
Qed.

(** The field that owns a bit. *)
Definition owner (p : bitpos) : option field := find (fun f => existsb (Nat.eqb p) (f_bits f)) fs.

Lemma owner_in : forall p f, owner p = Some f -> In f fs /\ In p (f_bits f).
Proof.
  intros p f H. apply find_some in H. destruct H as [I E]. split; [exact I|].
  apply existsb_exists in E. destruct E as [q [Q E]]. apply Nat.eqb_eq in E. subst. exact Q.
Qed.
Lemma owner_none : forall p, owner p = None -> ~ In p (flat_map f_bits fs).
Proof.
  intros p H I. apply in_flat_map in I. destruct I as [f [F I]]. unfold owner in H.
  pose proof (find_none _ _ H f F) as N. cbn in N.
  assert (X : existsb (Nat.eqb p) (f_bits f) = true) by (apply existsb_exists; exists p; split; [exact I|apply Nat.eqb_refl]).
  congruence.
Qed.

Lemma image_bit_zero : forall p, (p < 8 * n)%nat ->
  match owner p with None => true | Some f => code f a =? 0 end = true -> bit_at (image n fs a) p = false.
Proof.
  intros p L H. destruct (owner p) as [f|] eqn:O.
  - apply Z.eqb_eq in H. apply owner_in in O. destruct O as [I J].
    pose proof (image_read n fs a f SEP I) as R. rewrite H in R.
    apply In_nth_error in J. destruct J as [i J].
    assert (T : Z.testbit (bits_value (map (bit_at (image n fs a)) (f_bits f))) (Z.of_nat i) = bit_at (image n fs a) p).
    { rewrite bits_value_testbit.
      assert (X : (i < length (f_bits f))%nat) by (apply nth_error_Some; congruence).
      rewrite (nth_indep _ false (bit_at (image n fs a) O)) by (rewrite map_length; exact X).
      rewrite map_nth. f_equal. apply nth_error_nth. exact J. }
    rewrite R, Z.testbit_0_l in T. symmetry. exact T.
  - apply image_zero; [exact L|]. apply owner_none. exact O.
Qed.

Lemma bits_all_false : forall l, (forall b, In b l -> b = false) -> bits_value l = 0.
Proof.
  induction l as [|b r IH]; intros H; [reflexivity|]. cbn [bits_value].
  rewrite (H b) by (left; reflexivity). rewrite IH by (intros; apply H; right; assumption). reflexivity.
Qed.

Lemma read_clear : forall k lo w, (lo + w <= 8)%nat -> (k < n)%nat ->
  forallb (fun o => match o with None => true | Some f => code f a =? 0 end) (map owner (bits_of k lo (lo + w))) = true ->
  bf k lo w (image n fs a) = 0.
Proof.
  intros k lo w H L C. unfold bf. replace (Z.of_nat w) with (Z.of_nat (lo + w - lo)) by lia.
  rewrite <- bits_of_read by (auto using image_ok; lia).
  apply bits_all_false. intros b B. apply in_map_iff in B. destruct B as [p [<- P]].
  rewrite forallb_forall in C. apply image_bit_zero; [|apply C; apply in_map; exact P].
  unfold bits_of in P. apply in_map_iff in P. destruct P as [i [<- P]]. apply in_seq in P. lia.
Qed.

End Read.

Lemma byte0_bits : forall c, bytes_ok c -> byte_at 0 c = bf 0 0 5 c + 32 * bf 0 5 3 c.
Proof.
  intros c B. pose proof (byte_at_ok 0 c B) as [H1 H2]. unfold bf. change (2 ^ Z.of_nat 0) with 1.
  change (2 ^ Z.of_nat 5) with 32. change (2 ^ Z.of_nat 3) with 8. rewrite Z.div_1_r.
  rewrite (Z.mod_small (byte_at 0 c / 32) 8).
  - rewrite (Z.div_mod (byte_at 0 c) 32) at 1 by lia. lia.
  - split; [apply Z.div_pos; lia|apply Z.div_lt_upper_bound; lia].
Qed.
Lemma byte0_ub : forall c, bytes_ok c -> (0 < length c)%nat -> byte_at 0 c = ub 0 1 c.
Proof. intros [|x c] B L; [cbn in L; lia|]. unfold ub, slice. cbn. lia. Qed.

(** * Tactics *)

(** Replace [lookup n kw] by None for names that the user may not set. *)
Ltac no_lookup K :=
  repeat match goal with
  | |- context [lookup ?n ?kw] => rewrite (only_none _ n kw K eq_refl)
  end.
Ltac powers :=
  repeat match goal with
  | |- context [2 ^ width ?l] => let v := eval vm_compute in (2 ^ width l) in change (2 ^ width l) with v
  | |- context [2 ^ (width ?l - 1)] => let v := eval vm_compute in (2 ^ (width l - 1)) in change (2 ^ (width l - 1)) with v
  | |- context [width ?l mod 8] => let v := eval vm_compute in (width l mod 8) in change (width l mod 8) with v
  end.
Ltac is_pos p := lazymatch p with xH => idtac | xO ?q => is_pos q | xI ?q => is_pos q end.
Ltac is_const z := lazymatch z with Z0 => idtac | Zpos ?p => is_pos p | Zneg ?p => is_pos p end.
Ltac consts :=
  repeat match goal with
  | |- context [?a <=? ?b] => is_const a; is_const b;
       let v := eval vm_compute in (a <=? b) in change (a <=? b) with v
  | |- context [?a <? ?b] => is_const a; is_const b;
       let v := eval vm_compute in (a <? b) in change (a <? b) with v
  | |- context [?a =? ?b] => is_const a; is_const b;
       let v := eval vm_compute in (a =? b) in change (a =? b) with v
  end.
Lemma ok_setting : forall n kw,
  match lookup n kw with Some v => Ok v | None => Ok 0 end = Ok (setting n kw).
Proof. intros n kw. unfold setting. destruct (lookup n kw); reflexivity. Qed.
Ltac folds :=
  rewrite ?ok_setting; cbv iota;
  repeat match goal with
  | |- context [match lookup ?n ?kw with Some v => v | None => 0 end] =>
      change (match lookup n kw with Some v => v | None => 0 end) with (setting n kw)
  end.
Ltac big_powers :=
  change (2 ^ 64) with 18446744073709551616 in *; change (2 ^ 32) with 4294967296 in *;
  change (2 ^ 21) with 2097152 in *; change (2 ^ 16) with 65536 in *; change (2 ^ 8) with 256 in *;
  change (2 ^ 6) with 64 in *; change (2 ^ 5) with 32 in *; change (2 ^ 4) with 16 in *;
  change (2 ^ 3) with 8 in *; change (2 ^ 2) with 4 in *; change (2 ^ 1) with 2 in *.
Ltac values K :=
  first [rewrite !field_value_app | unfold field_value; cbn [f_init f_name]]; no_lookup K;
  cbn [lookup String.eqb Ascii.eqb Bool.eqb f_signed f_bits andb]; folds.

(** [packable fs a = true <-> ok], for a concrete table of fields. *)
Ltac packable_tac K :=
  rewrite packable_fits1;
  match goal with |- forallb ?g ?l = true <-> _ => let v := eval vm_compute in l in change l with v end;
  cbn [forallb]; unfold fits1; values K; unfold in_range; cbn [andb];
  powers; consts; cbn [andb];
  rewrite ?andb_true_r, ?andb_true_l, ?andb_true_iff, ?Z.leb_le, ?Z.ltb_lt;
  unfold settings_fit; rewrite ?Forall_cons_iff; cbn [fst snd]; big_powers;
  split; intros;
  repeat match goal with H : _ /\ _ |- _ => destruct H end;
  repeat match goal with |- _ /\ _ => split end; try assumption; try apply Forall_nil; try lia.

(** Replace the fields that the device reads by the values that were packed. *)
Ltac code_tac K := unfold code; values K; powers; rewrite ?Z.mod_small by lia.
Ltac read_fields SEP :=
  repeat match goal with
  | |- context [ub ?p ?q (image ?n ?fs ?a)] =>
      let o := eval vm_compute in (owner fs (8 * p)%nat) in
      match o with
      | Some ?g => rewrite (read_ub n fs a SEP g p q (proj1 (owner_in fs (8 * p)%nat g ltac:(vm_compute; reflexivity)))
                     ltac:(vm_compute; reflexivity) ltac:(lia) ltac:(vm_compute; lia))
      end
  | |- context [bf ?k ?lo ?w (image ?n ?fs ?a)] =>
      let o := eval vm_compute in (owner fs (8 * k + lo)%nat) in
      match o with
      | Some ?g => rewrite (read_bf n fs a SEP g k lo w (proj1 (owner_in fs (8 * k + lo)%nat g ltac:(vm_compute; reflexivity)))
                     ltac:(vm_compute; reflexivity) ltac:(lia))
      | None => rewrite (read_clear n fs a SEP k lo w ltac:(lia) ltac:(vm_compute; lia) ltac:(vm_compute; reflexivity))
      end
  end.
Ltac clear1 K SEP :=
  match goal with
  | |- bf ?k ?lo ?w (image ?n ?fs ?a) = 0 =>
      apply (read_clear n fs a SEP k lo w); [lia|vm_compute; lia|];
      match goal with |- forallb ?g ?l = true => let v := eval vm_compute in l in change l with v end;
      cbn [forallb];
      repeat match goal with
      | |- context [code ?f ?b =? 0] => replace (code f b) with 0 by (code_tac K; reflexivity)
      end; reflexivity
  end.
Ltac clear_tac K SEP :=
  unfold clear, whole; cbn [forallb];
  repeat match goal with
  | |- context [bf ?k ?lo ?w ?c] => replace (bf k lo w c) with 0 by (symmetry; clear1 K SEP)
  end; reflexivity.
(** [byte_at 0 (image n fs a) = op]. *)
Ltac opcode_tac K SEP :=
  first [ rewrite byte0_bits by apply image_ok; read_fields SEP; code_tac K; reflexivity
        | rewrite byte0_ub by (first [apply image_ok | rewrite image_length; vm_compute; lia]);
          read_fields SEP; code_tac K; reflexivity ].
(** [interpret (image n fs a) = Some op]. *)
Ltac interpret_tac K op :=
  match goal with
  | |- interpret (image ?n ?fs ?a) = Some _ =>
      let SEP := fresh "SEP" in let B := fresh "B" in
      assert (SEP : separate n fs = true) by (vm_compute; reflexivity);
      assert (B : byte_at 0 (image n fs a) = op) by opcode_tac K SEP;
      unfold interpret, interpret_op; rewrite B;
      unfold zlen; rewrite image_length;
      match goal with |- (if ?x =? ?y then _ else _) = _ =>
        let v := eval vm_compute in (x =? y) in change (x =? y) with v end;
      cbv iota zeta; consts; cbv iota;
      unfold if_clear, flags_at, lba6, length6
  end.

(** [asks (request ...) ok n op] and [tells (request ...) ok data op] once the object is
    there: [K] restricts the attributes set by the user, [tac] unfolds the initial
    attributes and the request, [op] is the operation code. *)
Ltac range_facts P :=
  unfold settings_fit in P; rewrite ?Forall_cons_iff in P; cbn [fst snd] in P;
  repeat match goal with H : _ /\ _ |- _ => destruct H end.
Ltac issue_tac K op tac :=
  unfold request, assigned; cbn [o_attrs o_datagram o_request bind];
  unfold pack_struct, pack_buffer; rewrite pack_fields_spec; tac;
  match goal with
  | |- context [packable ?fs ?a] =>
      match goal with
      | |- _ _ ?ok _ _ =>
          let P := fresh "P" in let E := fresh "E" in
          assert (P : packable fs a = true <-> ok) by packable_tac K;
          destruct (packable fs a) eqn:E; cbn [bind asks tells];
          [ pose proof (proj1 P eq_refl) as FIT;
            split; [exact FIT|];
            split; [first [reflexivity | unfold attr; rewrite ?lookup_app; no_lookup K; reflexivity]|];
            clear P; big_powers; range_facts FIT; interpret_tac K op
          | let X := fresh "X" in intros X; apply (proj2 P) in X; discriminate X ]
      end
  end.
(** The fields read by the device, and the bits that must be clear. *)
Ltac decode_tac K :=
  match goal with
  | SEP : separate _ _ = true |- (if ?x then _ else _) = _ =>
      let C := fresh "C" in
      assert (C : x = true) by clear_tac K SEP; rewrite C; clear C; read_fields SEP; code_tac K
  end.
(** The service action. *)
Ltac service_tac K :=
  match goal with
  | SEP : separate _ _ = true |- (if ?x then _ else _) = _ =>
      let C := fresh "C" in
      assert (C : x = true) by (read_fields SEP; code_tac K; reflexivity); rewrite C; clear C
  end.
