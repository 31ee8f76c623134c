(** CommandExecuterBase, src/infi/asi/__init__.py:71-157, and CommandExecuterAdapter
    (162-178).

    A callback is modelled by its identity (a number); calling it appends the identity
    and the delivered response to the log [cb_log].  Callbacks therefore do not raise
    and do not call back into the executer. *)
From Coq Require Import ZArith List Bool.
From Verif Require Import Base Gen.
Import ListNotations.
Open Scope Z_scope.

(** What a callback receives, __init__.py:133-136: callback(data, None) or
    callback(None, exception); data is None or a byte string. *)
Inductive resp : Type :=
| RespData (d : option bytes)
| RespExn (e : exn).

(** Values that executer generators yield: bool, int, bytes, the pair
    (result, packet_id), and objects of type [O] built from responses. [__init__.py:91, 125, 127, 138] *)
Inductive dval (O : Type) : Type :=
| DBool (b : bool)
| DInt (z : Z)
| DBytes (l : bytes)
| DPair (r : resp) (pid : Z)
| DObj (o : O).
Arguments DBool {O} b.
Arguments DInt {O} z.
Arguments DBytes {O} l.
Arguments DPair {O} r pid.
Arguments DObj {O} o.

(** Python dict with integer keys, in insertion order. *)
Section Dict.
Context {A : Type}.
(** [__init__.py:73] *)
Definition dict := list (Z * A).
(** [__init__.py:141] *)
Fixpoint dict_get (k : Z) (d : dict) : option A :=
  match d with
  | [] => None
  | (j, v) :: r => if j =? k then Some v else dict_get k r
  end.
(** [__init__.py:104] *)
Fixpoint dict_set (k : Z) (v : A) (d : dict) : dict :=
  match d with
  | [] => [(k, v)]
  | (j, w) :: r => if j =? k then (j, v) :: r else (j, w) :: dict_set k v r
  end.
(** [__init__.py:109, 129] *)
Fixpoint dict_del (k : Z) (d : dict) : dict :=
  match d with
  | [] => []
  | (j, w) :: r => if j =? k then r else (j, w) :: dict_del k r
  end.
End Dict.
Arguments dict : clear implicits.

(** Executer object: the attributes set in CommandExecuterBase.__init__ (72-75), the
    log of callback invocations, and the state [world] of the OS-specific subclass
    and of the outside world.  [R] is the type of the opaque OS request (os_data). [__init__.py:72-75] *)
Record executer (R W : Type) : Type := Executer {
  pending : dict (R * option nat);   (* pending_packets *)
  packet_index : Z;
  max_queue_size : Z;
  cb_log : list (nat * resp);
  world : W
}.
Arguments Executer {R W} _ _ _ _ _.
Arguments pending {R W} _.
Arguments packet_index {R W} _.
Arguments max_queue_size {R W} _.
Arguments cb_log {R W} _.
Arguments world {R W} _.

Section Exec.
Context {R W O C : Type}.
Notation ex := (executer R W).
Notation G := (gen ex (dval O)).
Notation V := (val (dval O)).

(** CommandExecuterBase.__init__, __init__.py:72-75. *)
Definition executer_init (max : Z) (w : W) : ex := Executer [] 0 max [] w.

(** As above: __init__.py:72-75. *)
Definition with_pending (s : ex) (p : dict (R * option nat)) : ex :=
  Executer p (packet_index s) (max_queue_size s) (cb_log s) (world s).
(** As above: __init__.py:72-75. *)
Definition with_index (s : ex) (i : Z) : ex :=
  Executer (pending s) i (max_queue_size s) (cb_log s) (world s).
(** As above: __init__.py:72-75. *)
Definition with_log (s : ex) (l : list (nat * resp)) : ex :=
  Executer (pending s) (packet_index s) (max_queue_size s) l (world s).
(** As above: __init__.py:72-75. *)
Definition with_world (s : ex) (w : W) : ex :=
  Executer (pending s) (packet_index s) (max_queue_size s) (cb_log s) w.

(** is_queue_full (93-94), is_queue_empty (96-97). [__init__.py:93-94] *)
Definition is_queue_full (s : ex) : bool := max_queue_size s <=? zlen (pending s).
(** [__init__.py:96-97] *)
Definition is_queue_empty (s : ex) : bool := zlen (pending s) =? 0.

(** _next_packet_index, __init__.py:116-121.  AsiRequestQueueFullError is not among the
    names imported at __init__.py:6, so the raise statement itself raises NameError. *)
Definition next_packet_index (s : ex) : ex * result Z :=
  if max_queue_size s <=? zlen (pending s) then (s, Err EName)
  else (with_index s ((packet_index s + 1) mod max_queue_size s), Ok (packet_index s)).

(** The OS-specific methods of a subclass: _os_prepare_to_send (143-145), _os_send
    (147-149), _os_receive (151-153). [__init__.py:143-153] *)
Record os_layer : Type := OsLayer {
  os_prepare_to_send : C -> Z -> ex -> ex * result R;
  os_send : R -> G;
  os_receive : G
}.

(** send up to the first yield, __init__.py:100-104. *)
Definition send_begin (os : os_layer) (c : C) (cb : option nat) (s : ex) : ex * result (Z * R) :=
  match next_packet_index s with
  | (s1, Err e) => (s1, Err e)
  | (s1, Ok idx) =>
    match os_prepare_to_send os c idx s1 with
    | (s2, Err e) => (s2, Err e)
    | (s2, Ok r) => (with_pending s2 (dict_set idx (r, cb) (pending s2)), Ok (idx, r))
    end
  end.

(** The except clause of send, __init__.py:108-110: del raises KeyError if the index
    has gone meanwhile. *)
Definition send_abort (idx : Z) (e : exn) (s : ex) : ex * exn :=
  match dict_get idx (pending s) with
  | Some _ => (with_pending s (dict_del idx (pending s)), e)
  | None => (s, EKey)
  end.

(** send after its yield, __init__.py:106-110. *)
Definition send_tail (idx : Z) : G :=
  Gen (fun i s => match i with
    | Send _ => (s, Stop)
    | Throw e => let (s1, e1) := send_abort idx e s in (s1, Raise e1)
    end).

(** send, __init__.py:99-110. *)
Definition send (os : os_layer) (c : C) (cb : option nat) : G :=
  Gen (fun i s => match i with
    | Throw e => (s, Raise e)
    | Send _ =>
      match send_begin os c cb s with
      | (s1, Err e) => (s1, Raise e)
      | (s1, Ok (idx, r)) => (s1, Yield (YGen (os_send os r)) (send_tail idx))
      end
    end).

(** The completion part of _process_pending_response, __init__.py:129-136.
    Calling a callback that is None raises TypeError after the pop. *)
Definition complete (rp : resp) (pid : Z) (s : ex) : ex * result unit :=
  match dict_get pid (pending s) with
  | None => (s, Err EAsiInternal)
  | Some (_, cb) =>
    let s1 := with_pending s (dict_del pid (pending s)) in
    match cb with
    | None => (s1, Err EType)
    | Some k => (with_log s1 (cb_log s1 ++ [(k, rp)]), Ok tt)
    end
  end.

(** _process_pending_response, __init__.py:123-138; states after its yields. *)
Definition process_end : G :=                              (* after line 138 *)
  Gen (fun i s => match i with Send _ => (s, Stop) | Throw e => (s, Raise e) end).

(** [__init__.py:129-138] *)
Definition process_received : G :=                         (* after line 127 *)
  Gen (fun i s => match i with
    | Throw e => (s, Raise e)
    | Send (VData (DPair rp pid)) =>
      match complete rp pid s with
      | (s1, Err e) => (s1, Raise e)
      | (s1, Ok _) => (s1, Yield (YVal (VData (DBool true))) process_end)
      end
    | Send _ => (s, Raise EType)                            (* cannot unpack *)
    end).

(** [__init__.py:127] *)
Definition process_receive (os : os_layer) : G :=          (* after line 125 *)
  Gen (fun i s => match i with
    | Throw e => (s, Raise e)
    | Send _ => (s, Yield (YGen (os_receive os)) process_received)
    end).

(** [__init__.py:123-125] *)
Definition process_pending_response (os : os_layer) : G :=
  Gen (fun i s => match i with
    | Throw e => (s, Raise e)
    | Send _ =>
      if is_queue_empty s
      then (s, Yield (YVal (VData (DBool false))) (process_receive os))
      else (s, Yield (YGen (os_receive os)) process_received)
    end).

(** The list [result] of a call in progress (78-80): the responses delivered to its
    private callback [me]. [__init__.py:78-80] *)
Definition results_of (me : nat) (s : ex) : list resp :=
  map snd (filter (fun p => Nat.eqb (fst p) me) (cb_log s)).

(** [__init__.py:91] *)
Definition val_of_data (d : option bytes) : V :=
  match d with None => VNone | Some b => VData (DBytes b) end.

(** call after its first yield, __init__.py:84-91. *)
CoFixpoint call_loop (os : os_layer) (me : nat) : G :=
  Gen (fun i s => match i with
    | Throw e => (s, Raise e)
    | Send _ =>
      match results_of me s with
      | [] => (s, Yield (YGen (process_pending_response os)) (call_loop os me))
      | RespExn e :: _ => (s, Raise e)
      | RespData d :: _ => (s, Yield (YVal (val_of_data d)) process_end)
      end
    end).

(** call, __init__.py:77-91; [me] identifies the fresh closure my_cb. *)
Definition call (os : os_layer) (me : nat) (c : C) : G :=
  Gen (fun i s => match i with
    | Throw e => (s, Raise e)
    | Send _ => (s, Yield (YGen (send os c (Some me))) (call_loop os me))
    end).

(** wait, __init__.py:112-114. *)
CoFixpoint wait (os : os_layer) : G :=
  Gen (fun i s => match i with
    | Throw e => (s, Raise e)
    | Send _ =>
      if is_queue_empty s then (s, Stop)
      else (s, Yield (YGen (process_pending_response os)) (wait os))
    end).

(** _get_os_data, __init__.py:140-141. *)
Definition get_os_data (s : ex) (idx : Z) : option R :=
  option_map fst (dict_get idx (pending s)).

(** CommandExecuterAdapter with call_wrapper = sync_call, __init__.py:162-178:
    the function objects handed to sync_call. *)
Definition adapter_call (n : nat) (os : os_layer) (me : nat) (c : C) (s : ex) :=
  sync_call n (fun s => (s, Ok (PGen (call os me c)))) s.
(** As above: __init__.py:162-178. *)
Definition adapter_send (n : nat) (os : os_layer) (c : C) (cb : option nat) (s : ex) :=
  sync_call n (fun s => (s, Ok (PGen (send os c cb)))) s.
(** As above: __init__.py:162-178. *)
Definition adapter_wait (n : nat) (os : os_layer) (s : ex) :=
  sync_call n (fun s => (s, Ok (PGen (wait os)))) s.
(** As above: __init__.py:162-178. *)
Definition adapter_is_queue_full (n : nat) (s : ex) : option (ex * outcome ex (dval O)) :=
  sync_call n (fun s => (s, Ok (PVal (VData (DBool (is_queue_full s)))))) s.

(** ** Event view

    One send (with the verdict of the OS) or one received response, executed without
    interruption, which is how sync_wait and sync_call run them. [__init__.py:99-138] *)
Inductive ex_event : Type :=
| EvSend (r : R) (cb : option nat) (os : result unit)
| EvResp (rp : resp) (pid : Z).

(** [__init__.py:99-138] *)
Inductive ex_obs : Type :=
| ObsSent (idx : Z)                       (* handed to the OS with this packet id *)
| ObsRejected (e : exn)                   (* send raised before reaching the OS *)
| ObsSendFailed (idx : Z) (e : exn)       (* the OS raised, send raised *)
| ObsCalled (cb : nat) (rp : resp)        (* callback invoked *)
| ObsRespRaised (e : exn).                (* processing the response raised *)

(** send (99-110) with _os_prepare_to_send returning [r] and _os_send succeeding or
    raising; _process_pending_response (123-138) with _os_receive returning (rp, pid).
    [__init__.py:99-110, 123-138] *)
Definition ex_do (s : ex) (ev : ex_event) : ex * ex_obs :=
  match ev with
  | EvSend r cb os =>
    match next_packet_index s with
    | (s1, Err e) => (s1, ObsRejected e)
    | (s1, Ok idx) =>
      let s2 := with_pending s1 (dict_set idx (r, cb) (pending s1)) in
      match os with
      | Ok _ => (s2, ObsSent idx)
      | Err e => let (s3, e1) := send_abort idx e s2 in (s3, ObsSendFailed idx e1)
      end
    end
  | EvResp rp pid =>
    match dict_get pid (pending s), complete rp pid s with
    | Some (_, Some k), (s1, Ok _) => (s1, ObsCalled k rp)
    | _, (s1, Ok _) => (s1, ObsRespRaised EAsiInternal)     (* not reachable *)
    | _, (s1, Err e) => (s1, ObsRespRaised e)
    end
  end.

(** [__init__.py:99-138] *)
Fixpoint ex_run (s : ex) (h : list ex_event) : ex * list ex_obs :=
  match h with
  | [] => (s, [])
  | ev :: r => let (s1, o) := ex_do s ev in let (s2, os) := ex_run s1 r in (s2, o :: os)
  end.

End Exec.

Arguments os_layer : clear implicits.
Arguments ex_event : clear implicits.
