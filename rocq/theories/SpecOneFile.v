(** Several executers over one device file on Linux, used in turn.  (Models no code; the driver is the one of
    SpecQueue.v: one queue of answers for the file, whoever sent the commands.) *)
From Coq Require Import ZArith List Bool.
From Verif Require Import Base Gen SpecGen Executer OsCommon OsLinux SpecSg SpecSession SpecQueue SpecGiveUp.
Import ListNotations.
Local Open Scope Z_scope.

(** ** What happens: the library's executers, each with its own timeout, over the world that they share *)
Section Runs.
Context {T A : Type} (sense_of : bytes -> result unit) (tgt : target T).
Notation ex := (executer sgio (linux_world (queue sg_hdr T))).

(** A call: which of the executers, the callback of the call, the command. *)
Definition a_call : Type := (nat * nat * scsi_command)%type.
Definition which (o : a_call) : nat := fst (fst o).
Definition whom (o : a_call) : nat := snd (fst o).
Definition what (o : a_call) : scsi_command := snd o.

Fixpoint put {X : Type} (k : nat) (x : X) (l : list X) : list X :=
  match l, k with
  | [], _ => []
  | _ :: r, 0%nat => x :: r
  | y :: r, S k => y :: put k x r
  end.

Inductive users_run : list (Z * ex) -> linux_world (queue sg_hdr T) -> list a_call -> list seen ->
  list (Z * ex) -> linux_world (queue sg_hdr T) -> Prop :=
| ur_nil : forall es w, users_run es w [] [] es w
| ur_answered : forall es w k me c timeout s s' rp ops l es' w', nth_error es k = Some (timeout, s) ->
    sync_wait_ends (call (linux_os (A := A) sense_of (patient tgt) timeout) me c) (with_world s w) s' (user_sees rp) ->
    users_run (put k (timeout, s') es) (world s') ops l es' w' -> users_run es w ((k, me, c) :: ops) (Answered rp :: l) es' w'
| ur_failed : forall es w k me c timeout s s' e ops l es' w', nth_error es k = Some (timeout, s) ->
    sync_wait_ends (call (linux_os (A := A) sense_of (patient tgt) timeout) me c) (with_world s w) s' (Threw e) ->
    users_run (put k (timeout, s') es) (world s') ops l es' w' -> users_run es w ((k, me, c) :: ops) (Failed e :: l) es' w'.

(** ** What is claimed to happen *)

(** A command on its way: its place in the order of sending, the packet number that its executer gave it. *)
Record ticket : Type := Ticket { t_seq : Z; t_number : Z; t_cmd : scsi_command }.
(** An executer: the number it gives next, the size of its queue, and whether one of its calls has failed without an answer. *)
Record book : Type := Book { b_index : Z; b_max : Z; b_broken : bool }.
Definition execute_ticket (x : ticket) (t : T) : T * answer := tgt t (command_of (t_cmd x)) (data_out (t_cmd x)).

(** The [n]-th call: the executer takes the first answer that the file has.  If it is its own, all is well.  If it is
    another's with the same number, it is taken for its own.  If it is another's with another number, the call fails. *)
Definition one_call (n : Z) (b : book) (q : queue ticket T) (c : scsi_command) : seen * book * queue ticket T :=
  let q1 := accept (Ticket n (b_index b) c) q in
  let b1 := Book ((b_index b + 1) mod b_max b) (b_max b) in
  match next execute_ticket q1 with
  | None => (Failed (EIO 0), b1 true, after_silence execute_ticket q1)
  | Some (x, a, q2) =>
    if t_seq x =? n then (Answered (linux_expected c a), b1 false, q2)
    else if t_number x =? b_index b then (Answered (linux_expected c (without_data a)), b1 false, q2)
    else (Failed (if is_clean (a_status a) (a_host a) (a_driver a) then EAttribute else EAsiInternal), b1 true, q2)
  end.

(** Calls in turn; executers of which a call has failed are not used again. *)
Fixpoint in_turns (n : Z) (books : list book) (q : queue ticket T) (ops : list a_call) : option (list seen * (Z * list book * queue ticket T)) :=
  match ops with
  | [] => Some ([], (n, books, q))
  | (k, me, c) :: ops =>
    match nth_error books k with
    | None => None
    | Some b =>
      if b_broken b then None
      else
        let '(x, b', q') := one_call n b q c in
        match in_turns (n + 1) (put k b' books) q' ops with
        | None => None
        | Some (l, st) => Some (x :: l, st)
        end
    end
  end.

(** Executers with nothing in flight over a file with nothing in flight. *)
Definition at_rest (p : Z * ex) (b : book) : Prop :=
  pending (snd p) = [] /\ packet_index (snd p) = b_index b /\ max_queue_size (snd p) = b_max b /\
  1 <= b_max b <= 2 ^ 31 /\ 0 <= b_index b < b_max b /\ b_broken b = false.
Definition all_at_rest (es : list (Z * ex)) (w : linux_world (queue sg_hdr T)) (books : list book) (script : list device_event) (t : T) : Prop :=
  Forall2 at_rest es books /\ l_dev w = Queue script t [] [].
(** Callbacks that no executer has seen, each used once. *)
Definition new_callbacks (es : list (Z * ex)) (ops : list a_call) : Prop :=
  NoDup (map whom ops) /\ forall p o, In p es -> In o ops -> ~ In (whom o) (map fst (cb_log (snd p))).

(** The commands one after the other. *)
Fixpoint one_after_another (t : T) (cmds : list scsi_command) : T * list seen :=
  match cmds with
  | [] => (t, [])
  | c :: cmds =>
    let (t1, a) := tgt t (command_of c) (data_out c) in
    let (t2, l) := one_after_another t1 cmds in (t2, Answered (linux_expected c a) :: l)
  end.
Definition nothing_failed (l : list seen) : Prop := Forall (fun x => match x with Failed _ => False | _ => True end) l.
End Runs.
Arguments users_run {T} A sense_of tgt _ _ _ _ _ _.
