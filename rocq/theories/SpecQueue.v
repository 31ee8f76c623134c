(** Several commands in flight on Linux: a device and driver that execute accepted requests in
    any order and hand the answers back in any order, and what a program sees that sends, waits
    and calls.  (Written from the description of the sg driver; models no code of the library.) *)
From Coq Require Import ZArith List Bool.
From Verif Require Import Base Gen SpecGen Executer OsCommon OsLinux SpecSg SpecSession.
Import ListNotations.
Open Scope Z_scope.

(** What the outside world does next: execute the [i]-th of the accepted requests, hand over
    the [i]-th of the answers that are ready, or nothing for longer than a read waits. *)
Inductive device_event : Type := Run (i : nat) | HandOver (i : nat) | Silence.

Record queue (X T : Type) : Type := Queue {
  q_script : list device_event;        (* what will happen *)
  q_target : T;
  q_accepted : list X;                 (* accepted, not executed *)
  q_ready : list (X * answer)          (* executed, not handed over *)
}.
Arguments Queue {X T} _ _ _ _.
Arguments q_script {X T} _.
Arguments q_target {X T} _.
Arguments q_accepted {X T} _.
Arguments q_ready {X T} _.

Definition accept {X T} (x : X) (q : queue X T) : queue X T :=
  Queue (q_script q) (q_target q) (q_accepted q ++ [x]) (q_ready q).
Definition outstanding {X T} (q : queue X T) : list X := q_accepted q ++ map fst (q_ready q).
Definition without {X} (i : nat) (l : list X) : list X := firstn i l ++ skipn (S i) l.

(** The world goes on until it hands over an answer. *)
Fixpoint fetch {X T} (run : X -> T -> T * answer) (script : list device_event) (t : T)
    (accepted : list X) (ready : list (X * answer)) : option (X * answer * queue X T) :=
  match script with
  | [] => None
  | Run i :: rest =>
    match nth_error accepted i with
    | None => fetch run rest t accepted ready
    | Some x => let (t', a) := run x t in fetch run rest t' (without i accepted) (ready ++ [(x, a)])
    end
  | HandOver i :: rest =>
    match nth_error ready i with
    | None => fetch run rest t accepted ready
    | Some (x, a) => Some (x, a, Queue rest t accepted (without i ready))
    end
  | Silence :: _ => None
  end.
Definition next {X T} (run : X -> T -> T * answer) (q : queue X T) : option (X * answer * queue X T) :=
  fetch run (q_script q) (q_target q) (q_accepted q) (q_ready q).

(** What has happened when a read is given up: everything up to the silence. *)
Fixpoint passed {X T} (run : X -> T -> T * answer) (script : list device_event) (t : T)
    (accepted : list X) (ready : list (X * answer)) : queue X T :=
  match script with
  | [] => Queue [] t accepted ready
  | Run i :: rest =>
    match nth_error accepted i with
    | None => passed run rest t accepted ready
    | Some x => let (t', a) := run x t in passed run rest t' (without i accepted) (ready ++ [(x, a)])
    end
  | HandOver _ :: rest => passed run rest t accepted ready
  | Silence :: rest => Queue rest t accepted ready
  end.
Definition after_silence {X T} (run : X -> T -> T * answer) (q : queue X T) : queue X T :=
  passed run (q_script q) (q_target q) (q_accepted q) (q_ready q).

(** The sg driver of such a device: a write() queues the request, a read() waits for an answer
    (and is given up if none ever comes), fills the buffers of its request and gives its block. *)
Section Driver.
Context {T : Type} (tgt : target T).
Definition queueing_write (b : sg_hdr) (h : heap) (q : queue sg_hdr T) : heap * queue sg_hdr T * result Z :=
  (h, accept b q, Ok 88).
Definition queueing_read (h : heap) (q : queue sg_hdr T) : heap * queue sg_hdr T * result (option sg_hdr) :=
  match next (fun b t => tgt t (described_cdb b h) (described_data b h)) q with
  | None => (h, q, Err (EIO 0))
  | Some (b, a, q') => (completed_mem b a h, q', Ok (Some (completed_hdr b a)))
  end.
Definition queueing : sg_driver (queue sg_hdr T) :=
  SgDriver queueing_write queueing_read (fun b h q => (h, q, Err (EIO 0))).

(** The same, but the world goes on after a read that was given up. *)
Definition patient_read (h : heap) (q : queue sg_hdr T) : heap * queue sg_hdr T * result (option sg_hdr) :=
  let run b t := tgt t (described_cdb b h) (described_data b h) in
  match next run q with
  | None => (h, after_silence run q, Err (EIO 0))
  | Some (b, a, q') => (completed_mem b a h, q', Ok (Some (completed_hdr b a)))
  end.
Definition patient : sg_driver (queue sg_hdr T) :=
  SgDriver queueing_write patient_read (fun b h q => (h, q, Err (EIO 0))).
End Driver.

(** The programs: send() with a callback, call(), wait(). *)
Inductive op : Type := Submit (me : nat) (c : scsi_command) | Call (me : nat) (c : scsi_command) | WaitAll.
Definition callbacks (ops : list op) : list nat :=
  flat_map (fun o => match o with Submit me _ | Call me _ => [me] | WaitAll => [] end) ops.

(** What the program sees at once; what the callbacks see is in the log. *)
Inductive seen : Type := Went | Answered (rp : resp) | Failed (e : exn).

Inductive program_runs {R W O} (os : os_layer R W O scsi_command) :
  executer R W -> list op -> executer R W -> list seen -> Prop :=
| pg_nil : forall s, program_runs os s [] s []
| pg_submit : forall s me c ops s1 v s2 l, sync_wait_ends (send os c (Some me)) s s1 (Returned v) ->
    program_runs os s1 ops s2 l -> program_runs os s (Submit me c :: ops) s2 (Went :: l)
| pg_submit_fails : forall s me c ops s1 e s2 l, sync_wait_ends (send os c (Some me)) s s1 (Threw e) ->
    program_runs os s1 ops s2 l -> program_runs os s (Submit me c :: ops) s2 (Failed e :: l)
| pg_call : forall s me c ops s1 rp s2 l, sync_wait_ends (call os me c) s s1 (user_sees rp) ->
    program_runs os s1 ops s2 l -> program_runs os s (Call me c :: ops) s2 (Answered rp :: l)
| pg_call_fails : forall s me c ops s1 e s2 l, sync_wait_ends (call os me c) s s1 (Threw e) ->
    program_runs os s1 ops s2 l -> program_runs os s (Call me c :: ops) s2 (Failed e :: l)
| pg_wait : forall s ops s1 v s2 l, sync_wait_ends (wait os) s s1 (Returned v) ->
    program_runs os s1 ops s2 l -> program_runs os s (WaitAll :: ops) s2 (Went :: l)
| pg_wait_fails : forall s ops s1 e s2 l, sync_wait_ends (wait os) s s1 (Threw e) ->
    program_runs os s1 ops s2 l -> program_runs os s (WaitAll :: ops) s2 (Failed e :: l).

(** What should happen.  Commands carry their place in the order of sending and their callback. *)
Record label : Type := Label { l_seq : Z; l_me : nat; l_cmd : scsi_command }.

Section Ideal.
Context {T : Type} (tgt : target T) (ok : answer -> Prop) (max : Z).
Definition execute_label (x : label) (t : T) : T * answer := tgt t (command_of (l_cmd x)) (data_out (l_cmd x)).
Definition report (p : label * answer) : nat * resp := (l_me (fst p), linux_expected (l_cmd (fst p)) (snd p)).

(** Answers that the world hands over one after the other. *)
Inductive handed_over : queue label T -> list (label * answer) -> queue label T -> Prop :=
| ho_nil : forall q, handed_over q [] q
| ho_next : forall q x a q1 l q', next execute_label q = Some (x, a, q1) -> ok a ->
    handed_over q1 l q' -> handed_over q ((x, a) :: l) q'.

(** No request is so old that [max] others have been sent since (otherwise see C03). *)
Definition in_time (n : Z) (q : queue label T) : Prop := Forall (fun x => n - max < l_seq x) (outstanding q).

Inductive queue_program : Z -> queue label T -> list op -> Z -> queue label T -> list (nat * resp) -> list seen -> Prop :=
| qp_nil : forall n q, queue_program n q [] n q [] []
| qp_submit : forall n q me c ops n' q' log l, fits c -> zlen (outstanding q) < max -> in_time n q ->
    queue_program (n + 1) (accept (Label n me c) q) ops n' q' log l ->
    queue_program n q (Submit me c :: ops) n' q' log (Went :: l)
| qp_submit_full : forall n q me c ops n' q' log l, max <= zlen (outstanding q) ->
    queue_program n q ops n' q' log l ->
    queue_program n q (Submit me c :: ops) n' q' log (Failed EName :: l)
| qp_call : forall n q me c a others q1 ops n' q' log l, fits c -> zlen (outstanding q) < max -> in_time n q ->
    handed_over (accept (Label n me c) q) (others ++ [(Label n me c, a)]) q1 ->
    queue_program (n + 1) q1 ops n' q' log l ->
    queue_program n q (Call me c :: ops) n' q' (map report (others ++ [(Label n me c, a)]) ++ log)
      (Answered (linux_expected c a) :: l)
| qp_call_full : forall n q me c ops n' q' log l, max <= zlen (outstanding q) ->
    queue_program n q ops n' q' log l ->
    queue_program n q (Call me c :: ops) n' q' log (Failed EName :: l)
| qp_wait : forall n q all q1 ops n' q' log l, handed_over q all q1 -> outstanding q1 = [] ->
    queue_program n q1 ops n' q' log l ->
    queue_program n q (WaitAll :: ops) n' q' (map report all ++ log) (Went :: l)
| qp_call_given_up : forall n q me c others q1 ops n' q' log l, fits c -> zlen (outstanding q) < max -> in_time n q ->
    handed_over (accept (Label n me c) q) others q1 -> ~ In (Label n me c) (map fst others) ->
    next execute_label q1 = None ->
    queue_program (n + 1) (after_silence execute_label q1) ops n' q' log l ->
    queue_program n q (Call me c :: ops) n' q' (map report others ++ log) (Failed (EIO 0) :: l)
| qp_wait_given_up : forall n q some q1 ops n' q' log l, handed_over q some q1 -> outstanding q1 <> [] ->
    next execute_label q1 = None ->
    queue_program n (after_silence execute_label q1) ops n' q' log l ->
    queue_program n q (WaitAll :: ops) n' q' (map report some ++ log) (Failed (EIO 0) :: l).
End Ideal.

(** An executer with nothing in flight, and the outside world in front of [script]. *)
Definition queue_idle {T} (s : executer sgio (linux_world (queue sg_hdr T))) (script : list device_event) (t : T) : Prop :=
  pending s = [] /\ 1 <= max_queue_size s <= 2 ^ 31 /\ 0 <= packet_index s < max_queue_size s /\
  l_dev (world s) = Queue script t [] [].

(** The commands of a batch with their places in the order of sending. *)
Fixpoint numbered (n : Z) (cmds : list (nat * scsi_command)) : list label :=
  match cmds with
  | [] => []
  | (me, c) :: rest => Label n me c :: numbered (n + 1) rest
  end.
Definition batch (cmds : list (nat * scsi_command)) : list op :=
  map (fun p => Submit (fst p) (snd p)) cmds ++ [WaitAll].

(** The callbacks of the operations that were not refused.  (A call that was given up was sent.) *)
Fixpoint sent (ops : list op) (l : list seen) : list nat :=
  match ops, l with
  | Submit me _ :: ops, Went :: l => me :: sent ops l
  | Call me _ :: ops, Answered _ :: l => me :: sent ops l
  | Call me _ :: ops, Failed (EIO _) :: l => me :: sent ops l
  | _ :: ops, _ :: l => sent ops l
  | _, _ => []
  end.
