(** Lemmas used for every OS layer. *)
From Coq Require Import ZArith List Bool.
From Verif Require Import Base Gen SpecGen Executer SpecCall OsCommon ExampleGens.
Import ListNotations.
Open Scope Z_scope.

Lemma same_books_world : forall R W (s : executer R W) w, same_books s (with_world s w).
Proof. intros. unfold same_books. auto. Qed.

Lemma ow_step : forall R W D (g : gen (executer R W) D),
  (forall i s, match resume g i s with
   | (s1, Stop) => same_books s s1
   | (s1, Raise _) => same_books s s1
   | (s1, Yield (YVal _) k) => same_books s s1 /\ only_world k
   | (s1, Yield (YGen c) k) => same_books s s1 /\ only_world c /\ only_world k
   | (s1, Yield (YTok t) k) => same_books s s1 /\ (forall s2, same_books s2 (fst (t s2))) /\ only_world k
   end) -> only_world g.
Proof.
  intros R W D g H. constructor; intros i s s1; intros; specialize (H i s);
    match goal with E : resume _ _ _ = _ |- _ => rewrite E in H end; exact H.
Qed.

Lemma gen_end_only_world : forall R W D, only_world (R := R) (W := W) (gen_end (D := D)).
Proof. intros. apply ow_step. intros [v|e] s; apply same_books_refl. Qed.
