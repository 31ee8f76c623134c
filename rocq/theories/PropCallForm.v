(** Property C124: arguments of constructors by position and by keyword. *)
From Coq Require Import String ZArith List Bool Lia Permutation.
From Verif Require Import Base OsCommon Instruct Command SpecCdb Pages CallForms SpecCallForms CallFormFacts.
Import ListNotations.
Local Open Scope string_scope.
Local Open Scope list_scope.
Local Open Scope Z_scope.

(** A call that can be understood makes the command in which every parameter has the value
    given at its place, the one given with its name, or the usual one. *)
Theorem C124_called : forall c pos kw f, NoDup (map fst kw) -> understood c pos kw ->
  (forall n, In n (order c) -> stands_for c pos kw n (f n) /\ of_kind n (f n)) ->
  call_class c pos kw = constructed (command_of c f).
Proof. exact called_as. Qed.
Print Assumptions C124_called.
(** Exactly one value stands for every parameter. *)
Theorem C124_one_value : forall c pos kw, NoDup (map fst kw) -> understood c pos kw ->
  forall n, In n (order c) -> exists v, stands_for c pos kw n v /\ forall w, stands_for c pos kw n w -> w = v.
Proof. exact each_has_one. Qed.
Print Assumptions C124_one_value.
(** Every other call raises TypeError. *)
Theorem C124_type_error : forall c pos kw, NoDup (map fst kw) -> ~ understood c pos kw -> call_class c pos kw = Err EType.
Proof. exact not_understood. Qed.
Print Assumptions C124_type_error.
(** The order of the keywords does not matter. *)
Theorem C124_keyword_order : forall c pos kw kw', NoDup (map fst kw) -> Permutation kw kw' -> call_class c pos kw = call_class c pos kw'.
Proof. exact keyword_order. Qed.
Print Assumptions C124_keyword_order.
(** All arguments by position is the same as all by keyword. *)
Theorem C124_all_named : forall c vs, length vs = length (order c) -> call_class c vs [] = call_class c [] (combine (order c) vs).
Proof. exact all_named. Qed.
Print Assumptions C124_all_named.

(** The third argument of the write commands is the block size, but not for WRITE SAME: there
    it is the number of blocks that are overwritten. *)
Definition write_classes : list class_name := [CWrite6; CWrite10; CWrite12; CWrite16; CWriteSame10; CWriteSame16].
Theorem C124_third_is_block_size_refuted :
  ~ forall c lba b n, In c write_classes -> call_class c [AInt lba; ABytes b; AInt n] [] = call_class c [AInt lba; ABytes b] [("block_size", AInt n)].
Proof.
  intro H. specialize (H CWriteSame10 0 [] 4096 (or_intror (or_intror (or_intror (or_intror (or_introl eq_refl)))))).
  assert (X : forall x y : result cdb_object, x = y -> (do o <- x; Ok (o_attrs o)) = (do o <- y; Ok (o_attrs o))) by (intros x y ->; reflexivity).
  apply X in H. vm_compute in H. discriminate H.
Qed.
Print Assumptions C124_third_is_block_size_refuted.

(** Non-trivial cases.  A block size by keyword, the rest by position. *)
Definition mixed_kw : list (string * argument) := [("block_size", AInt 4096); ("transfer_length", AInt 3)].
Definition mixed_values (n : string) : argument :=
  if String.eqb n "logical_block_address" then AInt 7 else if String.eqb n "transfer_length" then AInt 3 else AInt 4096.
Example mixed_distinct : NoDup (map fst mixed_kw).
Proof. repeat constructor; cbn; intuition discriminate. Qed.
Example mixed_understood : understood CRead10 [AInt 7] mixed_kw.
Proof.
  split; [cbn; lia|]. split.
  - intros n v [[= <- <-]|[[= <- <-]|[]]]; (split; [cbn; tauto|]); intros (i & E & L); cbn in L; destruct i; [discriminate|lia|discriminate|lia].
  - intros n [<-|[<-|[<-|[]]]]; [left; exists 0%nat; split; [reflexivity|cbn; lia]|right; left; cbn; tauto|right; left; cbn; tauto].
Qed.
Example mixed_call : call_class CRead10 [AInt 7] mixed_kw = constructed (Read10 7 3 4096 []).
Proof.
  apply (C124_called CRead10 [AInt 7] mixed_kw mixed_values mixed_distinct mixed_understood).
  intros n [<-|[<-|[<-|[]]]]; (split; [|cbn; eauto]);
    [apply at_its_place with 0%nat; reflexivity|apply with_its_name; cbn; auto|apply with_its_name; cbn; auto].
Qed.
Example mixed_one : exists v, stands_for CRead10 [AInt 7] mixed_kw "transfer_length" v /\ forall w, stands_for CRead10 [AInt 7] mixed_kw "transfer_length" w -> w = v.
Proof. apply (C124_one_value _ _ _ mixed_distinct mixed_understood). cbn. tauto. Qed.
(** Twice, unknown, missing, too many. *)
Example twice : call_class CRead10 [AInt 7; AInt 1] mixed_kw = Err EType.
Proof.
  apply C124_type_error; [exact mixed_distinct|]. intros (_ & K & _).
  apply (K "transfer_length" (AInt 3)); [cbn; auto|]. exists 1%nat. split; [reflexivity|cbn; lia].
Qed.
Example unknown_keyword : call_class CRead10 [AInt 7; AInt 1] [("blocksize", AInt 4096)] = Err EType.
Proof.
  apply C124_type_error; [repeat constructor; cbn; tauto|]. intros (_ & K & _).
  destruct (K "blocksize" (AInt 4096) (or_introl eq_refl)) as [[?|[?|[?|[]]]] _]; discriminate.
Qed.
Example missing_argument : call_class CLogSense [] [("allocation_length", AInt 8)] = Err EType.
Proof.
  apply C124_type_error; [repeat constructor; cbn; tauto|]. intros (_ & _ & M).
  destruct (M "page_code") as [(i & _ & L)|[[?|[]]|[?|[?|[]]]]]; [cbn; tauto|cbn in L; lia|discriminate|discriminate|discriminate].
Qed.
Example too_many : call_class CUnmap [ARanges []; AInt 1] [] = Err EType.
Proof. apply C124_type_error; [constructor|]. intros (L & _). cbn in L. lia. Qed.
Example swapped : call_class CRead10 [AInt 7] mixed_kw = call_class CRead10 [AInt 7] [("transfer_length", AInt 3); ("block_size", AInt 4096)].
Proof. apply C124_keyword_order; [exact mixed_distinct|apply perm_swap]. Qed.
Example inquiry_named :
  call_class CStandardInquiry [AInt 128; AInt 1; AInt 255] [] =
  call_class CStandardInquiry [] [("page_code", AInt 128); ("evpd", AInt 1); ("allocation_length", AInt 255)].
Proof. exact (C124_all_named CStandardInquiry [AInt 128; AInt 1; AInt 255] eq_refl). Qed.
