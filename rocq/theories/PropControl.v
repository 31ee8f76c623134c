(** C120: the control byte that is sent with a command, and the default that all commands share. *)
From Coq Require Import String ZArith List Bool Lia.
From Verif Require Import Base OsCommon Instruct Command SpecDevice SpecCdb SpecSettings Controls SpecControl ControlFacts.
Import ListNotations.
Local Open Scope Z_scope.
Local Open Scope list_scope.

(** C120: whatever a program has done with the controls of its commands: what is sent with command [k]. *)
Theorem C120_sent : forall copies past k c r, sensible past -> nth_error (made past) k = Some c -> issued c = Ok r ->
  snd (act copies (Execute k) (after copies past)) = Handed (Ok (with_control (sent_control copies k c past) r)).
Proof. exact sent_ok. Qed.

(** A program: a.control.naca = 1; b.control = Control(naca=0, vendor_specific=2); b.control.naca = 1. *)
Definition three : list action :=
  [SetPart 1 Naca 1; Replace 1 0 2; SetPart 0 Naca 1; Make (Inquiry 0 0 36 (fun b => Ok (PBytes b))); Make (ReadCapacity10 0 0); Make TestUnitReady].
Ltac sendable := split; [exact Logic.I|split; [eexists; vm_compute; reflexivity|exact Logic.I]].
Lemma three_sensible : sensible three.
Proof.
  cbn [sensible three fits].
  repeat match goal with |- _ /\ _ => split end; auto; try lia;
    first [exists (ReadCapacity10 0 0); split; [reflexivity|exact Logic.I]
          |exists TestUnitReady; split; [reflexivity|exact Logic.I]|sendable].
Qed.
(** The third command has not been touched; whether it is sent with NACA depends on the library. *)
Example C120_sent_case : forall r, issued (Inquiry 0 0 36 (fun b => Ok (PBytes b))) = Ok r ->
  snd (act (fun _ => true) (Execute 2) (after (fun _ => true) three)) = Handed (Ok (with_control (0, 0) r)) /\
  snd (act (fun _ => false) (Execute 2) (after (fun _ => false) three)) = Handed (Ok (with_control (1, 0) r)).
Proof.
  intros r R. split.
  - exact (C120_sent (fun _ => true) three 2 _ r three_sensible eq_refl R).
  - exact (C120_sent (fun _ => false) three 2 _ r three_sensible eq_refl R).
Qed.
Example C120_sent_bytes :
  snd (act (fun _ => false) (Execute 1) (after (fun _ => false) three)) =
    Handed (Ok (ReadCmd [37; 0; 0; 0; 0; 0; 0; 0; 0; 132] 8)) /\
  snd (act (fun _ => false) (Execute 0) (after (fun _ => false) three)) = Handed (Ok (ReadCmd [0; 0; 0; 0; 0; 4] 0)).
Proof. vm_compute. auto. Qed.

(** If the library copies the default for each object, each command is sent with what was set in it (and those with
    set_before_pack with 0). *)
Theorem C120_copied : forall copies past k c r, (forall f, copies f = true) -> sensible past ->
  nth_error (made past) k = Some c -> issued c = Ok r ->
  snd (act copies (Execute k) (after copies past)) =
    Handed (Ok (with_control (if control_is_fixed c then (0, 0) else set_in k past) r)).
Proof.
  intros copies past k c r A SP C R. rewrite (sent_ok copies past k c r SP C R). unfold sent_control.
  rewrite !A, orb_true_r. destruct (control_is_fixed c); reflexivity.
Qed.

(** So is each command, whatever the library does, if the program assigns whole control objects, and attributes only of
    those that it has assigned itself. *)
Theorem C120_assigned : forall copies past k c r, keeps_off_defaults past -> sensible past ->
  nth_error (made past) k = Some c -> issued c = Ok r ->
  snd (act copies (Execute k) (after copies past)) =
    Handed (Ok (with_control (if control_is_fixed c then (0, 0) else set_in k past) r)).
Proof.
  intros copies past k c r A SP C R. rewrite (sent_ok copies past k c r SP C R). unfold sent_control.
  rewrite !defaults_kept by exact A. destruct (control_is_fixed c); [destruct (copies OfBuffer); reflexivity|].
  destruct (has_own k past) eqn:O; [reflexivity|]. simpl. destruct (copies (kind c)); [reflexivity|].
  rewrite (never_set past k A O). reflexivity.
Qed.
Definition two_assigned : list action :=
  [SetPart 1 Naca 1; Replace 1 0 2; Make (ReadCapacity10 0 0); Make TestUnitReady].
Example C120_assigned_case : keeps_off_defaults two_assigned /\ sensible two_assigned /\
  set_in 1 two_assigned = (1, 2) /\ set_in 0 two_assigned = (0, 0).
Proof.
  split; [|split; [|split; reflexivity]].
  - cbn. auto.
  - cbn [sensible two_assigned fits]. repeat match goal with |- _ /\ _ => split end; auto; try lia;
      first [exists (ReadCapacity10 0 0); split; [reflexivity|exact Logic.I]|sendable].
Qed.

(** If the library hands out the default itself, an attribute set in one command is sent with all others of the family that have no control of
    their own ... *)
Theorem C120_spreads : forall copies past k j c d r w x, sensible (SetPart k w x :: past) ->
  nth_error (made past) k = Some c -> nth_error (made past) j = Some d -> kind c = kind d -> copies (kind d) = false ->
  has_own k past = false -> has_own j past = false -> issued d = Ok r ->
  exists p, snd (act copies (Execute j) (after copies (SetPart k w x :: past))) = Handed (Ok (with_control (assigned w x p) r)).
Proof.
  intros copies past k j c d r w x SP C D F NC OK OJ R. exists (set_in_any (kind d) past).
  rewrite (sent_ok copies (SetPart k w x :: past) j d r SP D R). unfold sent_control.
  change (has_own j (SetPart k w x :: past)) with (has_own j past). rewrite OJ, NC. simpl.
  assert (OD : on_default (kind d) k past = true).
  { unfold on_default. rewrite C, F, same_family_refl, OK. reflexivity. }
  destruct (control_is_fixed d) eqn:B.
  - assert (FB : kind d = OfBuffer) by (destruct d; try discriminate B; reflexivity).
    rewrite FB in *. rewrite NC, OD. reflexivity.
  - rewrite OD. reflexivity.
Qed.
(** ... and with all that are made afterwards. *)
Theorem C120_spreads_later : forall copies past k c d r w x, sensible (Make d :: SetPart k w x :: past) ->
  nth_error (made past) k = Some c -> kind c = kind d -> copies (kind d) = false -> has_own k past = false -> issued d = Ok r ->
  exists p, snd (act copies (Execute (length (made past))) (after copies (Make d :: SetPart k w x :: past))) =
    Handed (Ok (with_control (assigned w x p) r)).
Proof.
  intros copies past k c d r w x SP C F NC OK R. exists (set_in_any (kind d) past).
  assert (D : nth_error (made (Make d :: SetPart k w x :: past)) (length (made past)) = Some d).
  { simpl. rewrite nth_error_app2, Nat.sub_diag by lia. reflexivity. }
  rewrite (sent_ok copies _ _ d r SP D R). unfold sent_control.
  assert (SP0 : sensible past) by (simpl in SP; tauto).
  change (has_own (length (made past)) (Make d :: SetPart k w x :: past)) with (has_own (length (made past)) past).
  rewrite (proj2 (not_yet past (length (made past)) SP0 (le_n _))), NC. simpl.
  assert (OD : on_default (kind d) k past = true).
  { unfold on_default. rewrite C, F, same_family_refl, OK. reflexivity. }
  destruct (control_is_fixed d) eqn:B.
  - assert (FB : kind d = OfBuffer) by (destruct d; try discriminate B; reflexivity).
    rewrite FB in *. rewrite NC, OD. reflexivity.
  - rewrite OD. reflexivity.
Qed.
(** A RESERVE with NACA makes PERSISTENT RESERVE IN be sent with NACA, which no assignment to that command can do (C90). *)
Example C120_spreads_case :
  snd (act (fun _ => false) (Execute 1) (after (fun _ => false) [Make (PrIn 0 8); SetPart 0 Naca 1; Make Reserve6])) =
    Handed (Ok (ReadCmd [94; 0; 0; 0; 0; 0; 0; 0; 8; 4] 8)) /\
  issued (PrIn 0 8) = Ok (ReadCmd [94; 0; 0; 0; 0; 0; 0; 0; 8; 0] 8).
Proof. vm_compute. auto. Qed.

(** So it is wrong that what is set in a command is sent with that command only, whatever the library does with defaults. *)
Theorem C120_one_command_refuted : ~ (forall copies past k c r, sensible past -> nth_error (made past) k = Some c -> issued c = Ok r ->
  snd (act copies (Execute k) (after copies past)) =
    Handed (Ok (with_control (if control_is_fixed c then (0, 0) else set_in k past) r))).
Proof.
  intros H.
  assert (SP : sensible [SetPart 0 Naca 1; Make TestUnitReady; Make TestUnitReady]).
  { cbn [sensible fits]. repeat match goal with |- _ /\ _ => split end; auto; try lia;
      first [exists TestUnitReady; split; [reflexivity|exact Logic.I]|sendable]. }
  specialize (H (fun _ => false) _ 1%nat TestUnitReady (ReadCmd [0; 0; 0; 0; 0; 0] 0) SP eq_refl eq_refl).
  vm_compute in H. discriminate H.
Qed.

(** All theorems at once: closed under the global context. *)
Definition all_theorems := (@C120_sent, @C120_copied, @C120_assigned, @C120_spreads, @C120_spreads_later, @C120_one_command_refuted).
Print Assumptions all_theorems.
