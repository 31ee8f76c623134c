(** A device used in the Examples of the Linux properties.  Models no code in /repo. *)
From Coq Require Import ZArith List Bool Lia.
From Verif Require Import Base Gen SpecGen GenFacts Executer SpecCall OsCommon OsLinux SpecSg LinuxFacts.
Import ListNotations.
Open Scope Z_scope.

(** Used in the Examples: a device that gives the same answer to everything and records
    the commands it got (models no code). *)
Definition fixed_target (a : answer) : target (list (bytes * bytes)) :=
  fun t cdb data => (t ++ [(cdb, data)], a).
Definition any_sense : bytes -> result unit := fun _ => Ok tt.
Definition fixed_os (a : answer) := linux_os (A := unit) any_sense (honest (fixed_target a)) 3000.
Definition fixed_ioctl_os (a : answer) := linux_ioctl_os (A := unit) any_sense (honest (fixed_target a)) 3000.
Definition fresh (max : Z) : executer sgio (linux_world (sg_state (list (bytes * bytes)))) :=
  executer_init max (LinuxWorld [] ([], []) None).

Lemma fresh_call : forall a c, fits c -> exists h',
  call_evaluates (call (fixed_os a) 1 c) (fresh 1)
    (Executer [] 0 1 [(1%nat, linux_expected c a)] (LinuxWorld h' ([(command_of c, data_out c)], []) None))
    (outcome_of (linux_expected c a)).
Proof.
  intros a c Hf. apply (linux_call (A := unit) any_sense (fixed_target a) 3000 (fresh 1) 1 c [] [] None); cbn; auto; try lia.
Qed.

Lemma fresh_ioctl_call : forall a c, fits c -> exists h' buf,
  call_evaluates (call (fixed_ioctl_os a) 1 c) (fresh 1)
    (Executer [] 0 1 [(1%nat, RespData (data_wanted c (a_data a)))] (LinuxWorld h' ([(command_of c, data_out c)], []) buf))
    (outcome_of (RespData (data_wanted c (a_data a)))).
Proof.
  intros a c Hf. apply (linux_ioctl_call (A := unit) any_sense (fixed_target a) 3000 (fresh 1) 1 c [] [] [] None); cbn; auto; try lia.
Qed.

Lemma conflict_is_plain :
  exists s', sync_wait_ends (call (fixed_os (Answer 24 0 0 [] [])) 1 (WriteCmd [42] [1])) (fresh 1) s' (Threw EAsiSCSI).
Proof.
  destruct (fresh_call (Answer 24 0 0 [] []) (WriteCmd [42] [1])) as [h H]; [split; cbn; lia|].
  eexists. apply sync_wait_raise. exact H.
Qed.

Lemma failure_is_success :
  exists a s', is_check_condition (a_status a) (a_driver a) = true /\
    sync_wait_ends (call (fixed_ioctl_os a) 1 (ReadCmd [18; 0; 0; 0; 2; 0] 2)) (fresh 1) s'
      (Returned (RVal (VData (DBytes [0; 0])))).
Proof.
  exists (Answer 2 0 0 [] [112]).
  destruct (fresh_ioctl_call (Answer 2 0 0 [] [112]) (ReadCmd [18; 0; 0; 0; 2; 0] 2)) as [h [b H]]; [split; cbn; lia|].
  eexists. split; [reflexivity|]. apply sync_wait_value. exact H.
Qed.
