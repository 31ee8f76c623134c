(** Specification of a user who runs commands one after the other with
    sync_wait(executer.call(command)), and of what a device does meanwhile. *)
From Coq Require Import ZArith List Bool.
From Verif Require Import Base Gen SpecGen Executer OsCommon OsLinux OsSolaris OsAix OsWin32 SpecSg.
Import ListNotations.
Open Scope Z_scope.

(** What sync_wait gives when the response to the call is [rp]. *)
Definition user_sees {S O} (rp : resp) : outcome S (dval O) :=
  match rp with
  | RespExn e => Threw e
  | RespData None => Returned (RVal VNone)
  | RespData (Some b) => Returned (RVal (VData (DBytes b)))
  end.

(** The commands of a session, each with the identity of its callback, run to their ends
    one after the other. *)
Inductive sync_calls {R W O C} (os : os_layer R W O C) :
  executer R W -> list (nat * C) -> executer R W -> list (outcome (executer R W) (dval O)) -> Prop :=
| sc_nil : forall s, sync_calls os s [] s []
| sc_cons : forall s me c cmds s1 o s2 outs,
    sync_wait_ends (call os me c) s s1 o -> sync_calls os s1 cmds s2 outs ->
    sync_calls os s ((me, c) :: cmds) s2 (o :: outs).

(** A target executing commands one after the other: its final state and its answers. *)
Fixpoint target_run {T} (tgt : target T) (t : T) (cmds : list scsi_command) : T * list answer :=
  match cmds with
  | [] => (t, [])
  | c :: rest =>
    let (t1, a) := tgt t (command_of c) (data_out c) in
    let (t2, l) := target_run tgt t1 rest in (t2, a :: l)
  end.

(** The answers as the executer should report them. *)
Fixpoint reports (expected : scsi_command -> answer -> resp) (cmds : list scsi_command) (l : list answer) : list resp :=
  match cmds, l with
  | c :: cmds, a :: l => expected c a :: reports expected cmds l
  | _, _ => []
  end.

(** No request is waiting and the device is in state [t].  For Solaris and AIX with the
    single slot that is the default of the two modules (solaris.py:188, aix.py:364). *)
Definition linux_idle {T} (s : executer sgio (linux_world (sg_state T))) (t : T) : Prop :=
  pending s = [] /\ 1 <= max_queue_size s <= 2 ^ 31 /\ 0 <= packet_index s < max_queue_size s /\
  exists h buf, world s = LinuxWorld h (t, []) buf.
Definition solaris_idle {T} (s : executer scsicmd (solaris_world T)) (t : T) : Prop :=
  pending s = [] /\ max_queue_size s = 1 /\ packet_index s = 0 /\ s_dev (world s) = t.
Definition aix_idle {T} (s : executer passthru (aix_world T)) (t : T) : Prop :=
  pending s = [] /\ max_queue_size s = 1 /\ packet_index s = 0 /\ x_dev (world s) = t.
Definition win_idle {T} (s : executer spt (win_world T)) (t : T) : Prop :=
  pending s = [] /\ 1 <= max_queue_size s /\ w_dev (world s) = t.
