(** CommandExecuterBase with callbacks that do something: src/infi/asi/__init__.py:77-138 as in Executer.v, but calling a
    callback (134, 136) has an effect.

    The body of a callback is the user's.  [act k rp s] is what calling the callback [k] with the response [rp] does: the
    executer afterwards (the callback may use it) and whether it raises. *)
From Coq Require Import ZArith List Bool.
From Verif Require Import Base Gen Executer.
Import ListNotations.
Open Scope Z_scope.

Section Callbacks.
Context {R W O C : Type}.
Notation ex := (executer R W).
Notation G := (gen ex (dval O)).
Context (act : nat -> resp -> ex -> ex * result unit).

(** The completion part of _process_pending_response, __init__.py:129-136: the request is taken out of pending_packets before
    the callback is called. *)
Definition complete_cb (rp : resp) (pid : Z) (s : ex) : ex * result unit :=
  match dict_get pid (pending s) with
  | None => (s, Err EAsiInternal)
  | Some (_, cb) =>
    let s1 := with_pending s (dict_del pid (pending s)) in
    match cb with
    | None => (s1, Err EType)
    | Some k => act k rp (with_log s1 (cb_log s1 ++ [(k, rp)]))
    end
  end.

(** [__init__.py:129-138] *)
Definition process_received_cb : G :=                      (* after line 127 *)
  Gen (fun i s => match i with
    | Throw e => (s, Raise e)
    | Send (VData (DPair rp pid)) =>
      match complete_cb rp pid s with
      | (s1, Err e) => (s1, Raise e)
      | (s1, Ok _) => (s1, Yield (YVal (VData (DBool true))) process_end)
      end
    | Send _ => (s, Raise EType)
    end).

(** [__init__.py:127] *)
Definition process_receive_cb (os : os_layer R W O C) : G :=   (* after line 125 *)
  Gen (fun i s => match i with
    | Throw e => (s, Raise e)
    | Send _ => (s, Yield (YGen (os_receive os)) process_received_cb)
    end).

(** _process_pending_response, __init__.py:123-138. *)
Definition process_pending_response_cb (os : os_layer R W O C) : G :=
  Gen (fun i s => match i with
    | Throw e => (s, Raise e)
    | Send _ =>
      if is_queue_empty s
      then (s, Yield (YVal (VData (DBool false))) (process_receive_cb os))
      else (s, Yield (YGen (os_receive os)) process_received_cb)
    end).

(** call after its first yield, __init__.py:84-91. *)
CoFixpoint call_loop_cb (os : os_layer R W O C) (me : nat) : G :=
  Gen (fun i s => match i with
    | Throw e => (s, Raise e)
    | Send _ =>
      match results_of me s with
      | [] => (s, Yield (YGen (process_pending_response_cb os)) (call_loop_cb os me))
      | RespExn e :: _ => (s, Raise e)
      | RespData d :: _ => (s, Yield (YVal (val_of_data d)) process_end)
      end
    end).

(** call, __init__.py:77-91; its own callback [me] does nothing but append to the list (79-80), which is the log here. *)
Definition call_cb (os : os_layer R W O C) (me : nat) (c : C) : G :=
  Gen (fun i s => match i with
    | Throw e => (s, Raise e)
    | Send _ => (s, Yield (YGen (send os c (Some me))) (call_loop_cb os me))
    end).

(** wait, __init__.py:112-114. *)
CoFixpoint wait_cb (os : os_layer R W O C) : G :=
  Gen (fun i s => match i with
    | Throw e => (s, Raise e)
    | Send _ =>
      if is_queue_empty s then (s, Stop)
      else (s, Yield (YGen (process_pending_response_cb os)) (wait_cb os))
    end).

End Callbacks.
