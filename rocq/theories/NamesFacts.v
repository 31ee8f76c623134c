(** Facts about the name tables. *)
From Coq Require Import String ZArith List Bool Lia.
From Verif Require Import Base ErrorText SpecText TextFacts Names SpecNames.
Import ListNotations.
Local Open Scope string_scope.
Local Open Scope list_scope.
Local Open Scope Z_scope.

Lemma same_key_eq : forall a b, same_key a b = true <-> a = b.
Proof.
  intros [i|s] [j|t]; cbn [same_key]; rewrite ?Z.eqb_eq, ?String.eqb_eq; split; intro H; try discriminate; try congruence.
Qed.
Lemma get_app : forall d d' k, get (d ++ d') k = match get d k with Some v => Some v | None => get d' k end.
Proof. induction d as [|[k' v] d IH]; intros d' k; [reflexivity|]. cbn [app get]. destruct (same_key k k'); auto. Qed.
Lemma get_in : forall d k, get d k <> None <-> In k (map fst d).
Proof.
  induction d as [|[k' v] d IH]; intro k; cbn [get map fst In]; [tauto|]. destruct (same_key k k') eqn:E.
  - apply same_key_eq in E. subst. split; [auto|discriminate].
  - rewrite IH. split; [auto|]. intros [->|H]; [|exact H]. rewrite (proj2 (same_key_eq k k) eq_refl) in E. discriminate E.
Qed.

Lemma reserved_text : forall i, named_right (KInt i) (reserved (KInt i)) \/ standard_designator i <> None.
Proof.
  intro i. unfold named_right. destruct (standard_designator i); [right; discriminate|left].
  cbn [reserved]. eexists. split; [reflexivity|]. unfold hex. destruct (Z.ltb_spec i 0) as [N|N].
  - destruct (Z.leb_spec 0 i); [lia|].
    change (Some (number_from 16 0 (digits 16 (- i) ++ "]")%string) = Some (- i)). f_equal. apply number_of_digits; [lia|lia|reflexivity].
  - destruct (Z.leb_spec 0 i); [|lia].
    change (Some (number_from 16 0 (digits 16 i ++ "]")%string) = Some i). f_equal. apply number_of_digits; [lia|lia|reflexivity].
Qed.

Lemma standard_in_table : forall i, get designator_types (KInt i) = standard_designator i.
Proof.
  intro i. unfold standard_designator. destruct (Z.ltb_spec i 0) as [N|N].
  - cbn [designator_types get same_key]. repeat (match goal with |- context [i =? ?n] => destruct (Z.eqb_spec i n); [lia|] end). reflexivity.
  - destruct (Z.ltb_spec i 11) as [L|L].
    + assert (X : i = 0 \/ i = 1 \/ i = 2 \/ i = 3 \/ i = 4 \/ i = 5 \/ i = 6 \/ i = 7 \/ i = 8 \/ i = 9 \/ i = 10) by lia.
      repeat (destruct X as [->|X]; [reflexivity|]). subst. reflexivity.
    + replace (nth_error _ (Z.to_nat i)) with (@None string) by (symmetry; apply nth_error_None; cbn; lia).
      cbn [designator_types get same_key]. repeat (match goal with |- context [i =? ?n] => destruct (Z.eqb_spec i n); [lia|] end). reflexivity.
Qed.

(** The table after some lookups [seen]. *)
Definition table_after (d : names) (seen : list key) : Prop :=
  NoDup (map fst d) /\ (forall k v, get d k = Some v -> named_right k (Ok v)) /\
  (forall k, get d k <> None <-> exists i, k = KInt i /\ (0 <= i <= 10 \/ In k seen)).

Lemma start_table : table_after designator_types [].
Proof.
  split; [|split].
  - cbn. repeat (constructor; [cbn; intuition congruence|]). constructor.
  - intros [i|s] v H; [|discriminate H]. rewrite standard_in_table in H. unfold named_right. rewrite H. reflexivity.
  - intros k. split.
    + intros H. destruct k as [i|s]; [|contradiction H; reflexivity]. exists i. split; [reflexivity|]. left. rewrite standard_in_table in H.
      unfold standard_designator in H. destruct (Z.ltb_spec i 0); [contradiction|]. apply nth_error_Some in H. cbn in H. lia.
    + intros (i & -> & [H|[]]). rewrite standard_in_table. unfold standard_designator. destruct (Z.ltb_spec i 0); [lia|]. apply nth_error_Some. cbn. lia.
Qed.

Lemma lookup_step : forall d seen k d1 r, table_after d seen -> designator_name d k = (d1, r) -> named_right k r /\ table_after d1 (seen ++ [k]).
Proof.
  intros d seen k d1 r (N & V & M) H. unfold designator_name, getitem, missing in H. destruct (get d k) as [v|] eqn:G.
  - injection H as <- <-. split; [apply V; exact G|]. split; [exact N|]. split; [exact V|]. intro k'. rewrite M. split.
    + intros (i & -> & [X|X]); exists i; split; auto. right. apply in_or_app. auto.
    + intros (i & -> & [X|X]); [exists i; auto|]. apply in_app_or in X. destruct X as [X|[X|[]]]; [exists i; auto|]. subst k. apply M. rewrite G. discriminate.
  - destruct k as [i|s].
    + cbn [reserved] in H. injection H as <- <-. assert (S : standard_designator i = None).
      { destruct (standard_designator i) as [n|] eqn:S; [|reflexivity]. exfalso. apply (proj2 (M (KInt i))); [|exact G]. exists i. split; [reflexivity|]. left.
        unfold standard_designator in S. destruct (Z.ltb_spec i 0); [discriminate S|]. assert (X : nth_error
         ["vendor specific [0x0]"; "T10 vendor identification"; "EUI-64 based"; "NAA"; "Relative target port"; "Target port group";
          "Logical unit group"; "MD5 logical unit identifier"; "SCSI name string"; "Protocol specific port identifier"; "UUID identifier"]
          (Z.to_nat i) <> None) by (rewrite S; discriminate). apply nth_error_Some in X. cbn in X. lia. }
      destruct (reserved_text i) as [R|R]; [|contradiction]. cbn [reserved] in R. split; [exact R|]. split; [|split].
      * rewrite map_app. cbn [map fst]. apply NoDup_Add with (a := KInt i) (l := map fst d).
        -- rewrite <- (app_nil_r (map fst d)) at 1. apply Add_app.
        -- split; [exact N|]. intro X. apply get_in in X. contradiction.
      * intros k v. rewrite get_app. destruct (get d k) eqn:G'; [intro X; injection X as <-; apply V; exact G'|]. cbn [get].
        destruct (same_key k (KInt i)) eqn:E; [|discriminate]. apply same_key_eq in E. subst k. intro X. injection X as <-. exact R.
      * intro k. rewrite get_app. destruct (get d k) eqn:G'.
        -- split; [|discriminate]. intros _. destruct (proj1 (M k)) as (j & -> & X); [rewrite G'; discriminate|]. exists j. split; [reflexivity|].
           destruct X; auto. right. apply in_or_app. auto.
        -- cbn [get]. destruct (same_key k (KInt i)) eqn:E.
           ++ apply same_key_eq in E. subst k. split; [|discriminate]. intros _. exists i. split; [reflexivity|]. right. apply in_or_app. cbn. auto.
           ++ split; [contradiction|]. intros (j & -> & X). exfalso. destruct X as [X|X].
              ** apply (proj2 (M (KInt j))); eauto.
              ** apply in_app_or in X. destruct X as [X|[X|[]]]; [apply (proj2 (M (KInt j))); eauto|].
                 rewrite X, (proj2 (same_key_eq (KInt j) (KInt j)) eq_refl) in E. discriminate E.
    + injection H as <- <-. split; [reflexivity|]. split; [exact N|]. split; [exact V|]. intro k. rewrite M. split.
      * intros (i & -> & [X|X]); exists i; split; auto. right. apply in_or_app. auto.
      * intros (i & -> & [X|X]); [exists i; auto|]. apply in_app_or in X. destruct X as [X|[X|[]]]; [exists i; auto|discriminate X].
Qed.

Lemma lookups : forall ks d seen d' rs, table_after d seen -> looked_up d ks = (d', rs) -> Forall2 named_right ks rs /\ table_after d' (seen ++ ks).
Proof.
  induction ks as [|k ks IH]; intros d seen d' rs T H; cbn [looked_up] in H.
  - injection H as <- <-. rewrite app_nil_r. auto.
  - destruct (designator_name d k) as [d1 r] eqn:D. destruct (looked_up d1 ks) as [d2 l] eqn:K. injection H as <- <-.
    destruct (lookup_step _ _ _ _ _ T D) as [R T1]. destruct (IH _ _ _ _ T1 K) as [F T2]. split; [constructor; assumption|].
    rewrite <- app_assoc in T2. exact T2.
Qed.
