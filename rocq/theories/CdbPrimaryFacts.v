(** What the device is asked for by the other commands. *)
From Coq Require Import String ZArith List Bool Lia.
From Verif Require Import Base BaseFacts OsCommon Instruct InstructFacts Command CdbBlock CdbPrimary SpecDevice CdbLemmas CdbBlockFacts.
Import ListNotations.
Local Open Scope string_scope.
Local Open Scope Z_scope.

Lemma test_unit_ready_spec : asks (do o <- test_unit_ready; request o) True 0 OpTestUnitReady.
Proof. cbn [bind test_unit_ready]. vm_compute. auto. Qed.

Lemma report_luns_spec : forall select alloc allow,
  asks (do o <- report_luns select alloc allow; request o)
    (0 <= select < 2 ^ 8 /\ 0 <= alloc < 2 ^ 32) alloc (OpReportLuns select alloc).
Proof.
  intros select alloc allow. unfold report_luns. cbn [bind].
  issue_tac I 160 ltac:(unfold allocated). decode_tac I. reflexivity.
Qed.

Lemma rtpg_spec : forall format alloc,
  asks (do o <- rtpg format alloc; request o)
    (0 <= format <= 1 /\ 0 <= alloc < 2 ^ 32) alloc (OpReportTargetPortGroups format alloc).
Proof.
  intros format alloc. unfold rtpg, assert_.
  destruct ((format =? 0) || (format =? 1)) eqn:A; cbn [bind].
  2:{ apply orb_false_iff in A. rewrite !Z.eqb_neq in A. cbn [asks]. lia. }
  assert (0 <= format <= 1) by (apply orb_true_iff in A; rewrite !Z.eqb_eq in A; lia).
  issue_tac I 163 ltac:(unfold allocated). service_tac I. decode_tac I. reflexivity.
Qed.

Lemma log_sense_spec : forall page subpage alloc kw, only_sets ["sp"; "pc"; "parameter_pointer"] kw ->
  asks (do o <- log_sense page subpage alloc; request (assigned kw o))
    (0 <= page < 2 ^ 6 /\ 0 <= subpage < 2 ^ 8 /\ 0 <= alloc < 2 ^ 16 /\
     settings_fit [("sp", 1); ("pc", 2); ("parameter_pointer", 16)] kw)
    alloc (OpLogSense (setting "sp" kw) page subpage (setting "pc" kw) (setting "parameter_pointer" kw) alloc).
Proof.
  intros page subpage alloc kw K. unfold log_sense. cbn [bind].
  issue_tac K 77 ltac:(unfold allocated). decode_tac K. reflexivity.
Qed.

Lemma receive_copy_spec : forall alloc,
  asks (do o <- receive_copy alloc 0; request o) (0 <= alloc < 2 ^ 32) alloc (OpReceiveCopyParameters alloc).
Proof.
  intros alloc. unfold receive_copy. cbn [bind].
  issue_tac I 132 ltac:(unfold allocated). service_tac I. decode_tac I. reflexivity.
Qed.

Lemma receive_diagnostic_spec : forall page alloc parse,
  asks (do o <- receive_diagnostic page alloc parse; request o)
    (0 <= page < 2 ^ 8 /\ 0 <= alloc < 2 ^ 16) alloc (OpReceiveDiagnostic 1 page alloc).
Proof.
  intros page alloc parse. unfold receive_diagnostic. cbn [bind].
  issue_tac I 28 ltac:(unfold allocated). decode_tac I. reflexivity.
Qed.

Lemma inquiry_spec : forall evpd page alloc parse,
  asks (do o <- inquiry evpd page alloc parse; request o)
    (0 <= evpd < 2 ^ 1 /\ 0 <= page < 2 ^ 8 /\ 0 <= alloc < 2 ^ 16) alloc (OpInquiry evpd page alloc).
Proof.
  intros evpd page alloc parse. unfold inquiry. cbn [bind].
  issue_tac I 18 ltac:(unfold allocated). decode_tac I. reflexivity.
Qed.

Lemma reserve6_spec : tells (do o <- reserve6; request o) True [] OpReserve6.
Proof. vm_compute. auto. Qed.
Lemma release6_spec : tells (do o <- release6; request o) True [] OpRelease6.
Proof. vm_compute. auto. Qed.

(** * Persistent reservations *)

Lemma pr_in_spec : forall sa alloc,
  asks (do o <- pr_in sa alloc; request o) (0 <= sa < 2 ^ 5 /\ 8 <= alloc < 2 ^ 16) alloc (OpPrIn sa alloc).
Proof.
  intros sa alloc. unfold pr_in. asserts. bools.
  issue_tac I 94 ltac:(unfold allocated). decode_tac I. reflexivity.
Qed.
