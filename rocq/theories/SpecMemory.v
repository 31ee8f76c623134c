(** What memory the executer keeps while commands are out on Linux.  (Models no code; the driver is the one of
    SpecQueue.v.) *)
From Coq Require Import ZArith List Bool Permutation.
From Verif Require Import Base Gen SpecGen Executer OsCommon OsLinux SpecSg SpecSession SpecQueue.
Import ListNotations.
Local Open Scope Z_scope.

(** The pieces of memory that a request block points to: the driver reads and writes them until the answer is fetched. *)
Definition pieces (l : list (option addr)) : list addr := flat_map (fun p => match p with Some a => [a] | None => [] end) l.
Definition needed (b : sg_hdr) : list addr := pieces [sbp b; cmdp b; dxferp b].
(** The pieces of memory that live as long as a request object: its attributes sense_buffer and command_buffer, to which
    the block points from the beginning, and data_buffer. *)
Definition kept_by (r : sgio) : list addr := pieces [sbp (hdr r); cmdp (hdr r); data_buffer r].

Section Memory.
Context {T : Type}.
Notation ex := (executer sgio (linux_world (queue sg_hdr T))).

(** The request objects that the executer holds. *)
Definition held (s : ex) : list sgio := map (fun p => fst (snd p)) (pending s).

(** Nothing that the driver will use is given back, and nothing else is kept. *)
Definition memory_kept (s : ex) : Prop :=
  Permutation (outstanding (l_dev (world s))) (map hdr (held s)) /\
  Forall (fun r => incl (needed (hdr r)) (kept_by r)) (held s).
(** The block is with the driver, and the executer keeps none of the memory that it points to. *)
Definition dangling (b : sg_hdr) (s : ex) : Prop :=
  In b (outstanding (l_dev (world s))) /\ needed b <> [] /\
  forall r p, In r (held s) -> In p (needed b) -> ~ In p (kept_by r).

(** Memory that no request object keeps may have become anything. *)
Definition with_heap (s : ex) (h : heap) : ex :=
  with_world s (LinuxWorld h (l_dev (world s)) (l_buffer (world s))).
Definition may_become (s : ex) (h : heap) : Prop :=
  (length (l_heap (world s)) <= length h)%nat /\
  forall r p, In r (held s) -> In p (kept_by r) -> nth_error h p = nth_error (l_heap (world s)) p.

(** Programs during which memory is reused before every operation but the first, after the last, and thus
    whenever the program is not within the library; [reuse] says how. *)
Inductive runs_while_reused {O} (os : os_layer sgio (linux_world (queue sg_hdr T)) O scsi_command) (reuse : ex -> heap) :
  ex -> list op -> ex -> list seen -> Prop :=
| rr_nil : forall s, runs_while_reused os reuse s [] s []
| rr_op : forall s o ops s1 x s2 l, program_runs os s [o] s1 [x] ->
    runs_while_reused os reuse (with_heap s1 (reuse s1)) ops s2 l -> runs_while_reused os reuse s (o :: ops) s2 (x :: l).
End Memory.
