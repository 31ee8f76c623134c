(** READ(6) and WRITE(6): the address is split into five and sixteen bits, and length 0
    stands for 256. *)
From Coq Require Import String ZArith List Bool Lia.
From Verif Require Import Base BaseFacts OsCommon Instruct InstructFacts Command CdbBlock SpecDevice CdbLemmas CdbBlockFacts.
Import ListNotations.
Local Open Scope string_scope.
Local Open Scope Z_scope.

Ltac split_address lba :=
  let h := fresh "h" in let l := fresh "l" in
  change (Z.land lba 65535) with (Z.land lba (Z.ones 16));
  rewrite Z.land_ones, Z.shiftr_div_pow2 by lia;
  change (2 ^ 16) with 65536;
  pose proof (Z.div_mod lba 65536 ltac:(lia)); pose proof (Z.mod_pos_bound lba 65536 ltac:(lia));
  set (h := lba / 65536) in *; set (l := lba mod 65536) in *; clearbody h l.

Lemma read6_spec : forall lba tl bs,
  asks (do o <- read6 lba tl bs; request o) (0 <= lba < 2 ^ 21 /\ 0 <= tl < 2 ^ 8)
   (if bs * tl =? 0 then 131072 else bs * tl)
   (OpRead lba (if tl =? 0 then 256 else tl) no_flags).
Proof.
  intros lba tl bs. unfold read6. asserts. bools. split_address lba.
  issue_tac I 8 ltac:(idtac). decode_tac I. do 2 f_equal. lia.
Qed.
Lemma write6_spec : forall lba buffer bs, 1 <= bs ->
  tells (do o <- write6 lba buffer bs; request o)
   (0 <= lba < 2 ^ 21 /\ zlen buffer mod bs = 0 /\ 1 <= zlen buffer / bs <= 256)
   buffer (OpWrite lba (zlen buffer / bs) no_flags).
Proof.
  intros lba buffer bs B. unfold write6. 
  assert (0 <= zlen buffer / bs) by (apply Z.div_pos; unfold zlen; lia).
  unfold py_div, py_mod. replace (bs =? 0) with false by (symmetry; apply Z.eqb_neq; lia).
  set (q := zlen buffer / bs) in *. set (r := zlen buffer mod bs). clearbody q r.
  asserts. bools. split_address lba.
  set (t := if q =? 256 then 0 else q).
  assert (T : 0 <= t < 256 /\ (if t =? 0 then 256 else t) = q)
    by (subst t; destruct (Z.eqb_spec q 256); subst; [cbn|destruct (Z.eqb_spec q 0)]; lia).
  clearbody t.
  issue_tac I 10 ltac:(unfold write_request). decode_tac I.
  replace (if t =? 0 then 256 else t) with q by (symmetry; assumption). do 2 f_equal. lia.
Qed.
