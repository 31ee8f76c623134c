(** What the device is asked for by the block commands. *)
From Coq Require Import String ZArith List Bool Lia.
From Verif Require Import Base BaseFacts OsCommon Instruct InstructFacts Command CdbBlock SpecDevice SpecCdb CdbLemmas.
Import ListNotations.
Local Open Scope string_scope.
Local Open Scope Z_scope.

Ltac asserts :=
  unfold assert_;
  repeat match goal with
  | |- context [bind (if ?b then Ok tt else Err _) _] =>
      let A := fresh "A" in
      destruct b eqn:A; cbn [bind];
      [| cbn [bind asks tells];
         rewrite ?andb_false_iff, ?Z.ltb_ge, ?Z.leb_gt, ?Z.eqb_neq in A; lia ]
  end.
Ltac bools :=
  repeat match goal with
  | H : (_ && _) = true |- _ => apply andb_true_iff in H; destruct H
  | H : (_ =? _) = true |- _ => apply Z.eqb_eq in H
  | H : (_ <? _) = true |- _ => apply Z.ltb_lt in H
  | H : (_ <=? _) = true |- _ => apply Z.leb_le in H
  end.

(** * READ *)


Lemma read10_spec : forall lba tl bs kw, only_sets (rw10_names "rdprotect") kw ->
  asks (do o <- read10 lba tl bs; request (assigned kw o))
   (0 <= lba < 2 ^ 32 /\ 0 <= tl < 2 ^ 16 /\ settings_fit (rw10_widths "rdprotect") kw)
   (bs * tl) (OpRead lba tl (rw10_flags "rdprotect" kw)).
Proof.
  intros lba tl bs kw K. unfold rw10_names, rw10_widths, rw10_flags in *. unfold read10. asserts.
  issue_tac K 40 ltac:(unfold block_attrs, read_request). decode_tac K. reflexivity.
Qed.
Lemma read12_spec : forall lba tl bs kw, only_sets ["reserved"; "dpo"; "fua"] kw ->
  asks (do o <- read12 lba tl bs; request (assigned kw o))
   (0 <= lba < 2 ^ 32 /\ 0 <= tl < 2 ^ 32 /\ settings_fit [("reserved", 3); ("dpo", 1); ("fua", 1)] kw)
   (bs * tl) (OpRead lba tl (RwFlags (setting "reserved" kw) (setting "dpo" kw) (setting "fua" kw) 0 0)).
Proof.
  intros lba tl bs kw K. unfold read12. asserts.
  issue_tac K 168 ltac:(unfold block_attrs, read_request). decode_tac K. reflexivity.
Qed.
Lemma read16_spec : forall lba tl bs kw, only_sets (rw10_names "reserved") kw ->
  asks (do o <- read16 lba tl bs; request (assigned kw o))
   (0 <= lba < 2 ^ 64 /\ 0 <= tl < 2 ^ 32 /\ settings_fit (rw10_widths "reserved") kw)
   (bs * tl) (OpRead lba tl (rw10_flags "reserved" kw)).
Proof.
  intros lba tl bs kw K. unfold rw10_names, rw10_widths, rw10_flags in *. unfold read16. asserts.
  issue_tac K 136 ltac:(unfold block_attrs, read_request). decode_tac K. reflexivity.
Qed.

(** * WRITE *)

Ltac pydiv :=
  match goal with B : 1 <= ?bs |- context [py_div (zlen ?b) ?bs] =>
    unfold py_div, py_mod; replace (bs =? 0) with false by (symmetry; apply Z.eqb_neq; lia);
    cbn [bind];
    let q := fresh "q" in let r := fresh "r" in
    set (q := zlen b / bs); set (r := zlen b mod bs);
    assert (0 <= q) by (apply Z.div_pos; unfold zlen; lia);
    clearbody q r
  end.

Lemma write10_spec : forall lba buffer bs kw, only_sets (rw10_names "wrprotect") kw -> 1 <= bs ->
  tells (do o <- write10 lba buffer bs; request (assigned kw o))
   (0 <= lba < 2 ^ 32 /\ zlen buffer mod bs = 0 /\ zlen buffer / bs < 2 ^ 16 /\ settings_fit (rw10_widths "wrprotect") kw)
   buffer (OpWrite lba (zlen buffer / bs) (rw10_flags "wrprotect" kw)).
Proof.
  intros lba buffer bs kw K B. unfold rw10_names, rw10_widths, rw10_flags in *. unfold write10. pydiv. asserts. bools.
  issue_tac K 42 ltac:(unfold block_attrs, write_request). decode_tac K. reflexivity.
Qed.
Lemma write12_spec : forall lba buffer bs kw, only_sets (rw10_names "wrprotect") kw -> 1 <= bs ->
  tells (do o <- write12 lba buffer bs; request (assigned kw o))
   (0 <= lba < 2 ^ 32 /\ zlen buffer mod bs = 0 /\ 0 < zlen buffer / bs < 2 ^ 32 /\ settings_fit (rw10_widths "wrprotect") kw)
   buffer (OpWrite lba (zlen buffer / bs) (rw10_flags "wrprotect" kw)).
Proof.
  intros lba buffer bs kw K B. unfold rw10_names, rw10_widths, rw10_flags in *. unfold write12. pydiv. asserts. bools.
  issue_tac K 170 ltac:(unfold block_attrs, write_request). decode_tac K. reflexivity.
Qed.
Lemma write16_spec : forall lba buffer bs kw, only_sets (rw10_names "wrprotect") kw -> 1 <= bs ->
  tells (do o <- write16 lba buffer bs; request (assigned kw o))
   (0 <= lba < 2 ^ 64 /\ zlen buffer mod bs = 0 /\ zlen buffer / bs < 2 ^ 32 /\ settings_fit (rw10_widths "wrprotect") kw)
   buffer (OpWrite lba (zlen buffer / bs) (rw10_flags "wrprotect" kw)).
Proof.
  intros lba buffer bs kw K B. unfold rw10_names, rw10_widths, rw10_flags in *. unfold write16. pydiv. asserts. bools.
  issue_tac K 138 ltac:(unfold block_attrs, write_request). decode_tac K. reflexivity.
Qed.

(** * WRITE SAME *)

Lemma write_same10_spec : forall lba buffer n bs kw,
  only_sets ["wrprotect"; "pbdata"; "lbdata"; "group_number"] kw ->
  tells (do o <- write_same10 lba buffer n bs; request (assigned kw o))
   (0 <= lba < 2 ^ 32 /\ 0 <= n < 2 ^ 16 /\ zlen buffer mod 512 = 0 /\
    settings_fit [("wrprotect", 3); ("pbdata", 1); ("lbdata", 1); ("group_number", 5)] kw)
   buffer (OpWriteSame lba n (setting "wrprotect" kw) 0 (setting "pbdata" kw) (setting "lbdata" kw) (setting "group_number" kw)).
Proof.
  intros lba buffer n bs kw K. unfold write_same10. set (r := zlen buffer mod 512). clearbody r. asserts. bools.
  issue_tac K 65 ltac:(unfold same_attrs, write_request). decode_tac K. reflexivity.
Qed.
Lemma write_same16_spec : forall lba buffer n bs kw,
  only_sets ["wrprotect"; "unmap"; "pbdata"; "lbdata"; "group_number"] kw ->
  tells (do o <- write_same16 lba buffer n bs; request (assigned kw o))
   (0 <= lba < 2 ^ 64 /\ 0 <= n < 2 ^ 32 /\ zlen buffer mod 512 = 0 /\
    settings_fit [("wrprotect", 3); ("unmap", 1); ("pbdata", 1); ("lbdata", 1); ("group_number", 5)] kw)
   buffer (OpWriteSame lba n (setting "wrprotect" kw) (setting "unmap" kw) (setting "pbdata" kw) (setting "lbdata" kw) (setting "group_number" kw)).
Proof.
  intros lba buffer n bs kw K. unfold write_same16. set (r := zlen buffer mod 512). clearbody r. asserts. bools.
  issue_tac K 147 ltac:(unfold same_attrs, write_request). decode_tac K. reflexivity.
Qed.

(** * COMPARE AND WRITE *)

Lemma compare_and_write_spec : forall lba buffer n bs kw, only_sets (rw10_names "wrprotect") kw -> 1 <= bs ->
  tells (do o <- compare_and_write lba buffer n bs; request (assigned kw o))
   (0 <= lba < 2 ^ 64 /\ 0 <= n < 2 ^ 8 /\ zlen buffer mod bs = 0 /\ settings_fit (rw10_widths "wrprotect") kw)
   buffer (OpCompareAndWrite lba n (rw10_flags "wrprotect" kw)).
Proof.
  intros lba buffer n bs kw K B. unfold rw10_names, rw10_widths, rw10_flags in *. unfold compare_and_write. pydiv. asserts.
  unfold request, assigned; cbn [o_attrs o_datagram o_request bind].
  unfold attr. rewrite !lookup_app. no_lookup K.
  change (lookup "logical_block_address" [("logical_block_address", lba); ("number_of_logical_blocks", n)]) with (Some lba).
  change (lookup "number_of_logical_blocks" [("logical_block_address", lba); ("number_of_logical_blocks", n)]) with (Some n).
  cbv iota. asserts. bools.
  issue_tac K 137 ltac:(unfold write_request). decode_tac K. reflexivity.
Qed.

(** * READ CAPACITY *)

Lemma no_settings : forall kw, only_sets [] kw -> kw = [].
Proof. intros [|p kw] K; [reflexivity|]. inversion K; subst. contradiction. Qed.

Lemma read_capacity10_spec : forall lba pmi,
  asks (do o <- read_capacity10 lba pmi; request o) (0 <= lba < 2 ^ 32 /\ 0 <= pmi < 2 ^ 1) 8 (OpReadCapacity10 lba pmi).
Proof.
  intros lba pmi. unfold read_capacity10. cbn [bind].
  issue_tac I 37 ltac:(idtac). decode_tac I. reflexivity.
Qed.
Lemma read_capacity16_spec : forall lba pmi,
  asks (do o <- read_capacity16 lba pmi; request o) (0 <= lba < 2 ^ 64 /\ 0 <= pmi < 2 ^ 1) 32 (OpReadCapacity16 lba pmi 32).
Proof.
  intros lba pmi. unfold read_capacity16. cbn [bind].
  issue_tac I 158 ltac:(idtac). service_tac I. decode_tac I. reflexivity.
Qed.
