(** The value that execute() yields: C77. *)
From Coq Require Import String ZArith List Bool Lia.
From Verif Require Import Base OsCommon Instruct Command CdbBlock CdbPrimary SpecCdb SpecResults CdbAllFacts.
Import ListNotations.
Local Open Scope string_scope.
Local Open Scope Z_scope.

(** Reads, writes, reservations, LOG SENSE, UNMAP: the data of the device, untouched, whatever attributes
    the user has set in between. *)
Theorem C77_handed_over : forall c kw o d, hands_over c = true -> constructed c = Ok o ->
  yields (Ok (assigned kw o)) d = Ok (as_it_is d).
Proof.
  intros c kw o d R H. unfold yields; cbn [bind]. cbn [assigned o_finish o_attrs].
  destruct c; try discriminate R; cbn [constructed] in *; unfold with_settings in H;
    first
    [ apply bind_ok in H; destruct H as [x [E H]]; injection H as <-;
      unfold read10, read12, read16, write10, write12, write16, write_same10, write_same16, compare_and_write,
        unmap, log_sense in E; inv_binds E; injection E as <-; reflexivity
    | unfold read6, write6, reserve6, release6, reserve10, release10, pr_out in H; inv_binds H;
      injection H as <-; reflexivity ].
Qed.
(** TEST UNIT READY: True if the executer does not raise, never anything else. *)
Theorem C77_test_unit_ready : forall kw o d, constructed TestUnitReady = Ok o ->
  yields (Ok (assigned kw o)) d = Ok (PBool true).
Proof. intros kw o d H. injection H as <-. reflexivity. Qed.

Example C77_handed_over_example : exists o,
  constructed (Read10 5 2 512 [("fua", 1)]) = Ok o /\ yields (Ok o) (Some [1; 2; 3]) = Ok (PBytes [1; 2; 3]) /\
  yields (Ok o) None = Ok PNone.
Proof. eexists. repeat split. Qed.
Example C77_test_unit_ready_example : exists o,
  constructed TestUnitReady = Ok o /\ yields (Ok o) None = Ok (PBool true).
Proof. eexists. repeat split. Qed.

Print Assumptions C77_handed_over.
Print Assumptions C77_test_unit_ready.
