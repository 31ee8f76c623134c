(** C107: names of designator types, device types and versions. *)
From Coq Require Import String ZArith List Bool Lia.
From Verif Require Import Base ErrorText SpecText TextFacts Names SpecNames NamesFacts.
Import ListNotations.
Local Open Scope string_scope.
Local Open Scope list_scope.
Local Open Scope Z_scope.

(** Whatever was looked up before, a lookup gives the name of the standard, or a text with the number of a reserved type. *)
Theorem C107_designators : forall ks d' rs, looked_up designator_types ks = (d', rs) -> Forall2 named_right ks rs.
Proof. intros ks d' rs H. eapply lookups; [exact start_table|exact H]. Qed.
(** But the lookup of a reserved type stays in the table: then it is there for [in], get() and iteration, exactly once. *)
Theorem C107_table_grows : forall ks d' rs, looked_up designator_types ks = (d', rs) ->
  NoDup (map fst d') /\ forall k, In k (map fst d') <-> exists i, k = KInt i /\ (0 <= i <= 10 \/ In k ks).
Proof.
  intros ks d' rs H. destruct (lookups _ _ _ _ _ start_table H) as [_ (N & _ & M)]. split; [exact N|]. intro k. rewrite <- get_in. apply M.
Qed.
(** So whether a type is in the table does not tell whether it is reserved. *)
Theorem C107_membership_refuted : forall i, standard_designator i = None ->
  get designator_types (KInt i) = None /\ get (fst (looked_up designator_types [KInt i])) (KInt i) <> None.
Proof.
  intros i S. split; [rewrite standard_in_table; exact S|]. destruct (looked_up designator_types [KInt i]) as [d rs] eqn:E.
  apply get_in. apply (proj2 (C107_table_grows _ _ _ E)). exists i. cbn. auto.
Qed.

(** Every device type that INQUIRY data can have has an entry, with the name where there is one. *)
Theorem C107_device_types : forall b, exists t, plain_getitem device_types (KInt (b mod 32)) = Ok t /\
  forall n, standard_device_type (b mod 32) = Some n -> t = n.
Proof.
  intro b. assert (B : 0 <= b mod 32 < 32) by (apply Z.mod_pos_bound; lia). set (i := b mod 32) in *. clearbody i.
  assert (F : forallb (fun i => match plain_getitem device_types (KInt i) with
      | Ok t => match standard_device_type i with Some n => String.eqb t n | None => true end
      | Err _ => false end) (map Z.of_nat (seq 0 32)) = true) by (vm_compute; reflexivity).
  rewrite forallb_forall in F. specialize (F i). cbv beta in F.
  assert (X : In i (map Z.of_nat (seq 0 32))) by (apply in_map_iff; exists (Z.to_nat i); split; [lia|apply in_seq; lia]).
  specialize (F X). destruct (plain_getitem device_types (KInt i)) as [t|]; [|discriminate F]. exists t. split; [reflexivity|].
  intros n E. rewrite E in F. apply String.eqb_eq. exact F.
Qed.
(** The names of versions; those from 8 on raise KeyError. *)
Theorem C107_versions : forall v, 0 <= v ->
  plain_getitem versions (KInt v) = match standard_version v with Some n => Ok n | None => Err EKey end /\ (standard_version v = None <-> 8 <= v).
Proof.
  intros v V. destruct (Z.le_gt_cases 8 v) as [H|H].
  - replace (standard_version v) with (@None string) by (symmetry; apply nth_error_None; cbn; lia). split; [|tauto].
    unfold plain_getitem, versions. cbn [get same_key]. repeat (match goal with |- context [v =? ?n] => destruct (Z.eqb_spec v n); [lia|] end). reflexivity.
  - assert (X : v = 0 \/ v = 1 \/ v = 2 \/ v = 3 \/ v = 4 \/ v = 5 \/ v = 6 \/ v = 7) by lia.
    repeat (destruct X as [->|X]; [split; [reflexivity|split; [discriminate|lia]]|]). subst. split; [reflexivity|split; [discriminate|lia]].
Qed.

(** ** Examples *)
Example C107_example :
  snd (looked_up designator_types [KInt 3; KInt 11; KInt 3; KInt (-1); KOther "naa"; KInt 11]) =
    [Ok "NAA"; Ok "Reserved [0xb]"; Ok "NAA"; Ok "Reserved [-0x1]"; Err EType; Ok "Reserved [0xb]"] /\
  map fst (skipn 10 (fst (looked_up designator_types [KInt 3; KInt 11; KInt 3; KInt (-1); KOther "naa"; KInt 11]))) = [KInt 10; KInt 11; KInt (-1)] /\
  hex_after "Reserved [" "Reserved [0xb]" = Some 11.
Proof. split; [|split]; reflexivity. Qed.
Example C107_device_types_example : plain_getitem device_types (KInt (13 mod 32)) = Ok "enclosure services device" /\
  plain_getitem device_types (KInt (0x75 mod 32)) = Ok "0x15" /\ plain_getitem versions (KInt 8) = Err EKey /\ standard_designator 11 = None.
Proof. repeat split. Qed.

Print Assumptions C107_designators.
Print Assumptions C107_table_grows.
Print Assumptions C107_membership_refuted.
Print Assumptions C107_device_types.
Print Assumptions C107_versions.
