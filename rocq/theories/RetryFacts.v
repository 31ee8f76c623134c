(** Lemmas on programs that decide by sense data. *)
From Coq Require Import String ZArith List Bool Lia PeanoNat.
From Verif Require Import Base BaseFacts Gen SpecGen Executer SpecCall
  OsCommon OsLinux OsSolaris OsAix OsWin32 SpecSg SpecDrivers SpecSession SessionFacts
  Instruct InstructFacts Command Sense SpecDevice SpecCdb CdbLemmas SpecExecute ExecuteFacts
  SpecSense SenseFacts SpecPortable PortableFacts SpecReserve SpecAdaptive AdaptiveFacts CdbPrimary SpecRobust RobustFacts SpecResults PropResults SpecRetry.
Import ListNotations.
Local Open Scope string_scope.
Local Open Scope list_scope.
Local Open Scope Z_scope.

Lemma told_right : forall s, conforming_sense s ->
  told (pad 255 s) = match means s with Some (k, c, q) => Ok (nth (Z.to_nat k) sense_keys "", c, q) | None => Err EAttribute end.
Proof.
  intros s C. pose proof C as [O _].
  assert (OP : bytes_ok (pad 255 s)) by (apply pad_ok; exact O).
  assert (NE : pad 255 s <> []) by (intros E; pose proof (pad_len 255 s) as L; rewrite E in L; discriminate L).
  assert (BT : forall i, (i < 255)%nat -> byte_at i (pad 255 s) = byte_at i s) by (intros; apply pad_nth; lia).
  assert (B0 : bf 0 0 7 (pad 255 s) = byte_at 0 s mod 128).
  { unfold bf. rewrite BT by lia. change (2 ^ Z.of_nat 0) with 1. rewrite Z.div_1_r. reflexivity. }
  assert (U : forall i, (i < 255)%nat -> ub i (Datatypes.S i) (pad 255 s) = byte_at i s).
  { intros i H. rewrite <- BT by lia. unfold ub, slice. replace (Datatypes.S i - i)%nat with 1%nat by lia.
    unfold byte_at. pose proof (pad_len 255 s) as L. clear - H L. revert i H L. generalize (pad 255 s). intros b i H L.
    destruct (skipn i b) as [|h r] eqn:E.
    - apply (f_equal (@length _)) in E. rewrite skipn_length in E. cbn in E. lia.
    - cbn. rewrite <- (firstn_skipn i b), E. rewrite app_nth2; rewrite firstn_length, Nat.min_l by lia; [|lia].
      rewrite Nat.sub_diag. reflexivity. }
  assert (K : forall i, (i < 255)%nat -> bf i 0 4 (pad 255 s) = byte_at i s mod 16).
  { intros i H. unfold bf. rewrite BT by lia. change (2 ^ Z.of_nat 0) with 1. rewrite Z.div_1_r. reflexivity. }
  unfold told, means.
  destruct (Z.eqb_spec (byte_at 0 s mod 128) 112) as [E|N1]; [|destruct (Z.eqb_spec (byte_at 0 s mod 128) 113) as [E|N2]];
    cbn [orb].
  1,2: rewrite sense_fixed_format by (auto; rewrite B0; auto);
    replace (17 <=? zlen (pad 255 s)) with true by (unfold zlen; rewrite pad_len; reflexivity);
    unfold fixed_sense_object; rewrite !U, !K by lia; reflexivity.
  destruct (Z.eqb_spec (byte_at 0 s mod 128) 114) as [E|N3]; [|destruct (Z.eqb_spec (byte_at 0 s mod 128) 115) as [E|N4]];
    cbn [orb].
  1,2: pose proof (conforming_parses s C) as P; unfold parse_sense in P;
    destruct (sense_object (pad 255 s)) as [p|e] eqn:SO; [|cbn in P; discriminate P];
    destruct (sense_descriptor_format (pad 255 s) p OP) as (ds & ->); [rewrite B0; auto|exact SO|];
    unfold descriptor_sense_object, descriptor_sense_attrs; rewrite !U, !K by lia; reflexivity.
  rewrite sense_other_format by (auto; rewrite B0; auto). reflexivity.
Qed.

Section Runs.
Context {T : Type} (sys : system T) (tgt : target T).

Lemma seen_check : forall padded c k a, a_status a = 2 -> seen padded c k a = Err (EAsiCheckCondition (pad 255 (a_sense a))).
Proof. intros padded c k a E. unfold seen. rewrite E. reflexivity. Qed.

Lemma anything_honest : forall class d r b, parses_anything class d r -> r <> Err (EAsiCheckCondition b).
Proof.
  intros class d r b P E. subst r. destruct d; cbn in P; [|discriminate P]. destruct P as [(l & P)|P]; discriminate P.
Qed.
Lemma honest_result : forall c k d b, honest c -> issued c = Ok k -> yields (constructed c) d <> Err (EAsiCheckCondition b).
Proof.
  intros c k d b H J. unfold issued in J. destruct (constructed c) as [o|e] eqn:C; [|discriminate J]. clear J.
  destruct (hands_over c) eqn:HO.
  - pose proof (C77_handed_over c [] o d HO C) as X. unfold yields in *. cbn [bind assigned app o_finish o_attrs] in *.
    rewrite X. discriminate.
  - rewrite <- C. destruct c; try discriminate HO; cbn [constructed honest] in *.
    + eapply anything_honest. apply (proj1 (read_capacity_command lba pmi d)).
    + eapply anything_honest. apply (proj2 (read_capacity_command lba pmi d)).
    + cbn. discriminate.
    + destruct (Z.lt_ge_cases alloc 16) as [L|L].
      * rewrite report_luns_short_command by exact L. destruct (_ =? _); discriminate.
      * destruct (report_luns_command select alloc allow d L) as [[(l & ->)| ->]|(_ & x & [-> | ->])]; discriminate.
    + eapply anything_honest. eapply rtpg_command. exact C.
    + eapply anything_honest. apply receive_copy_command.
    + unfold yields, receive_diagnostic. cbn [bind o_finish]. unfold parsed. destruct d; [apply H|discriminate].
    + unfold yields, inquiry. cbn [bind o_finish]. unfold parsed. destruct d; [apply H|discriminate].
    + destruct (pr_in_command sa alloc o d C) as [P N].
      destruct (Z.le_gt_cases 0 sa); [destruct (Z.le_gt_cases sa 3)|].
      * eapply anything_honest. apply P. lia.
      * rewrite N by lia. discriminate.
      * rewrite N by lia. discriminate.
Qed.

Lemma insisting_does : forall padded again c k n m t t' a, proper c -> honest c -> issued c = Ok k -> moderate k ->
  sent tgt k again n m t t' a -> does tgt padded t (insisting again n c) t' (ends padded c k a).
Proof.
  intros padded again c k n m t t' a P Hc J M S. induction S as [n t t' a E O L|n m t t1 a1 t' a E O L S IH].
  - assert (X : does tgt padded t' (match seen padded c k a with
        | Err (EAsiCheckCondition b) => match told b with
            | Ok (q, x, y) => match n with
                 | Datatypes.S m => if again q x y then insisting again m c else finish (seen padded c k a)
                 | 0%nat => finish (seen padded c k a) end
            | Err e => Fail e end
        | _ => finish (seen padded c k a) end) t' (ends padded c k a)).
    + unfold ends. destruct (Z.eqb_spec (a_status a) 2) as [St|St].
      * rewrite (seen_check padded c k a St). rewrite told_right by apply O.
        unfold asks_again in L. rewrite St in L. cbn [andb Z.eqb Pos.eqb] in *.
        destruct (means (a_sense a)) as [[[q x] y]|]; cbn [andb].
        -- destruct n as [|n]; [apply does_finish|]. destruct L as [L|L]; [discriminate L|]. rewrite L. apply does_finish.
        -- constructor.
      * cbn [andb]. destruct (seen padded c k a) as [v|e] eqn:V; [apply does_finish|].
        destruct e; try apply does_finish. exfalso. unfold seen in V.
        destruct (a_status a =? 0); [|destruct (Z.eqb_spec (a_status a) 2); [contradiction|discriminate V]].
        eapply honest_result; eauto.
    + destruct n; cbn [insisting]; (eapply does_command; [exact P|exact J|exact M|exact E|exact O|]);
        (destruct (seen padded c k a) as [v|[]]; exact X).
  - cbn [insisting]. eapply does_command; [exact P|exact J|exact M|exact E|exact O|].
    unfold asks_again in L. apply andb_prop in L. destruct L as [St L]. apply Z.eqb_eq in St.
    rewrite (seen_check padded c k a1 St). rewrite told_right by apply O.
    destruct (means (a_sense a1)) as [[[q x] y]|]; [|discriminate L]. rewrite L. exact IH.
Qed.

Lemma sent_bound : forall again k n m t t' a, sent tgt k again n m t t' a -> (m <= n)%nat.
Proof. intros again k n m t t' a S. induction S; lia. Qed.

Lemma sent_exists : forall again k n t, answers tgt k -> exists m t' a, sent tgt k again n m t t' a.
Proof.
  intros again k n. induction n as [|n IH]; intros t A; pose proof (A t) as O;
    destruct (tgt t (command_of k) (data_out k)) as [t1 a1] eqn:E; cbn [snd] in O.
  - exists 0%nat, t1, a1. apply sent_last; auto.
  - destruct (asks_again again a1) eqn:G.
    + destruct (IH t1 A) as (m & t' & a & S). exists (Datatypes.S m), t', a. eapply sent_again; eauto.
    + exists 0%nat, t1, a1. apply sent_last; auto.
Qed.
Lemma sent_unique : forall again k n m t t' a m2 t2 a2, sent tgt k again n m t t' a -> sent tgt k again n m2 t t2 a2 ->
  m = m2 /\ t' = t2 /\ a = a2.
Proof.
  intros again k n m t t' a m2 t2 a2 S. revert m2 t2 a2.
  induction S as [n t t' a E O L|n m t t1 a1 t' a E O L S IH]; intros m2 t2 a2 S2; inversion S2; subst;
    repeat match goal with X : tgt t _ _ = _, Y : tgt t _ _ = _ |- _ => rewrite X in Y; injection Y as -> -> end; auto.
  - destruct L as [L|L]; [discriminate L|congruence].
  - match goal with X : _ \/ _ |- _ => destruct X as [X|X]; [discriminate X|congruence] end.
  - match goal with X : sent _ _ _ _ _ _ _ _ |- _ => destruct (IH _ _ _ X) as (-> & -> & ->) end. auto.
Qed.

Lemma insisting_runs : forall again c k n m t t' a s, one_of_four sys -> idle sys s t ->
  proper c -> honest c -> issued c = Ok k -> moderate k -> sent tgt k again n m t t' a ->
  exists s', sync_wait_ends (coroutine (os_of sys tgt) (insisting again n c)) s s' (shown (ends (pads sys) c k a)) /\ idle sys s' t'.
Proof. intros. eapply adaptive; eauto. eapply insisting_does; eauto. Qed.
End Runs.
