(** Coroutines that use several executers in one process, one per path or device: copying from
    one disk to another, and trying a command on the next path when one is lost. *)
From Coq Require Import String ZArith List Bool.
From Verif Require Import Base Gen SpecGen Executer OsCommon SpecSg SpecDrivers Instruct Command CdbPrimary SpecDevice SpecCdb SpecExecute
  SpecSense SpecPortable SpecReserve SpecAdaptive SpecAsync SpecClone SpecShared.
Import ListNotations.
Local Open Scope string_scope.
Local Open Scope list_scope.
Local Open Scope Z_scope.

(** A coroutine with a list of executers: as [prog] in SpecAdaptive.v, but a command names the
    executer ([yield command.execute(executers[d])] within try ... except). *)
Inductive job : Type :=
| JReturn (v : pyval)
| JFail (e : exn)
| Via (d : nat) (c : command) (next : result pyval -> job)
| JCall (j : job) (next : result pyval -> job).

(** A program for one executer, run with executer [d]. *)
Fixpoint part (d : nat) (p : prog) : job :=
  match p with
  | Return v => JReturn v
  | Fail e => JFail e
  | Do c next => Via d c (fun r => part d (next r))
  | Call q next => JCall (part d q) (fun r => part d (next r))
  end.
Definition jfinish (r : result pyval) : job := match r with Ok v => JReturn v | Err e => JFail e end.

(** * As generators *)

(** The executers of a process, and the state of everything they reach. *)
Record machine {T} (sys : system T) : Type := Machine { executers : list (executer (req sys) (mem sys)); outside : T }.
Arguments Machine {T sys} _ _. Arguments executers {T sys} _. Arguments outside {T sys} _.

Section Coroutine.
Context {T : Type} (sys : system T) (tgt : nat -> target T).

(** Executer [d] has gone on to [s], and with it what it reaches. *)
Definition advanced (d : nat) (s : executer (req sys) (mem sys)) (m : machine sys) : machine sys :=
  Machine (set_nth d s (executers m)) (dev sys s).
Definition token_through {D} (d : nat) (t : token (executer (req sys) (mem sys)) D) : token (machine sys) D :=
  fun m => match nth_error (executers m) d with
           | Some s => let (s1, r) := t (attach sys s (outside m)) in (advanced d s1 m, r)
           | None => (m, Err EIndex)
           end.
(** A generator of one executer as one of the process. *)
CoFixpoint through {D} (d : nat) (g : gen (executer (req sys) (mem sys)) D) : gen (machine sys) D :=
  Gen (fun i m =>
    match nth_error (executers m) d with
    | None => (m, Raise EIndex)
    | Some s =>
      match resume g i (attach sys s (outside m)) with
      | (s1, Stop) => (advanced d s1 m, Stop)
      | (s1, Raise e) => (advanced d s1 m, Raise e)
      | (s1, Yield (YVal v) k) => (advanced d s1 m, Yield (YVal v) (through d k))
      | (s1, Yield (YGen c) k) => (advanced d s1 m, Yield (YGen (through d c)) (through d k))
      | (s1, Yield (YTok t) k) => (advanced d s1 m, Yield (YTok (token_through d t)) (through d k))
      end
    end).

Fixpoint job_coroutine (j : job) : gen (machine sys) (dval (wire (wired sys) pyval)) :=
  match j with
  | JReturn v => Gen (fun _ m => (m, Yield (YVal (yielded_value v)) gen_end))
  | JFail e => Gen (fun _ m => (m, Raise e))
  | Via d c next => Gen (fun i m =>
      match constructed c with
      | Ok o =>
        match nth_error (executers m) d with
        | Some s => (m, Yield (YGen (through d (execute (os_of sys (tgt d)) (fresh s) o)))
                          (Gen (fun i' m' => resume (job_coroutine (next (caught i'))) i' m')))
        | None => (m, Raise EIndex)
        end
      | Err e => resume (job_coroutine (next (Err e))) i m
      end)
  | JCall q next => Gen (fun _ m =>
      (m, Yield (YGen (job_coroutine q)) (Gen (fun i' m' => resume (job_coroutine (next (caught i'))) i' m'))))
  end.
End Coroutine.

(** * What they should see *)

(** The adapter could not reach the device, or lost its answer: there is no status. *)
Definition gone (a : answer) : Prop := a_host a <> 0 /\ a_status a = 0 /\ a_driver a = 0.
(** What a command raises then.  On Solaris the ioctl fails with EIO, on Windows DeviceIoControl fails. *)
Inductive raises_when_gone {T} : system T -> exn -> Prop :=
| gone_linux : forall timeout, raises_when_gone (linux_system T timeout) EAsiSCSI
| gone_solaris : forall fails timeout, (forall a, a_host a = 0 -> fails a = false) -> (forall a, a_host a <> 0 -> fails a = true) ->
    raises_when_gone (solaris_system T fails timeout) (EIO 5)
| gone_aix : forall timeout use_ctypes, raises_when_gone (aix_system T timeout use_ctypes) EAsiSCSI
| gone_windows : raises_when_gone (win_system T) EAsiOS.

(** [happens n tgt padded loss t j t' r]: with [n] executers, executer [d] at [tgt d], the
    coroutine takes the outside world from [t] to [t'] and ends with [r].  A command whose
    path is lost raises [loss]. *)
Inductive happens {T} (n : nat) (tgt : nat -> target T) (padded : bool) (loss : exn) : T -> job -> T -> result pyval -> Prop :=
| hp_return : forall t v, happens n tgt padded loss t (JReturn v) t (Ok v)
| hp_fail : forall t e, happens n tgt padded loss t (JFail e) t (Err e)
| hp_refused : forall t d c next e t' r, (d < n)%nat -> issued c = Err e ->
    happens n tgt padded loss t (next (Err e)) t' r -> happens n tgt padded loss t (Via d c next) t' r
| hp_command : forall t d c next k t1 a t' r, (d < n)%nat -> proper c -> issued c = Ok k -> moderate k ->
    tgt d t (command_of k) (data_out k) = (t1, a) -> ordinary a ->
    happens n tgt padded loss t1 (next (seen padded c k a)) t' r -> happens n tgt padded loss t (Via d c next) t' r
| hp_gone : forall t d c next k t1 a t' r, (d < n)%nat -> proper c -> issued c = Ok k -> moderate k ->
    tgt d t (command_of k) (data_out k) = (t1, a) -> gone a ->
    happens n tgt padded loss t1 (next (Err loss)) t' r -> happens n tgt padded loss t (Via d c next) t' r
| hp_call : forall t q next t1 rq t' r, happens n tgt padded loss t q t1 rq ->
    happens n tgt padded loss t1 (next rq) t' r -> happens n tgt padded loss t (JCall q next) t' r.

(** [n] executers, none of which waits for anything. *)
Definition ready {T} (sys : system T) (n : nat) (m : machine sys) (t : T) : Prop :=
  length (executers m) = n /\ outside m = t /\ Forall (fun s => exists t0, idle sys s t0) (executers m).

(** * Two disks *)

(** Path 0 leads to the first of two devices, the others to the second. *)
Definition two_devices {A B} (ta : target A) (tb : target B) (d : nat) : target (A * B) := fun t cdb data =>
  match d with
  | 0%nat => let (a, x) := ta (fst t) cdb data in ((a, snd t), x)
  | _ => let (b, x) := tb (snd t) cdb data in ((fst t, b), x)
  end.

Fixpoint copying (rd : reader) (wr : writer) (bs : Z) (l : list (Z * Z)) : job :=
  match l with
  | [] => JReturn PNone
  | (lba, n) :: l => Via 0 (rd lba n bs) (fun r =>
      match r with
      | Ok (PBytes b) => Via 1 (wr lba b bs) (fun r => match r with Ok _ => copying rd wr bs l | Err e => JFail e end)
      | Ok _ => JFail EType
      | Err e => JFail e
      end)
  end.
(** Copy the first disk to the second; ValueError if the block sizes differ or it is too small. *)
Definition sizes : prog := with_capacity (fun n bs => Return (PList [PInt n; PInt bs])).
Definition copy_disk (rd : reader) (wr : writer) (chunk : Z) : job :=
  JCall (part 0 sizes) (fun r => JCall (part 1 sizes) (fun r' =>
    match r, r' with
    | Ok (PList [PInt n; PInt bs]), Ok (PList [PInt n'; PInt bs']) =>
      if (bs =? bs') && (n <=? n') then copying rd wr bs (extents 0 n chunk) else JFail EValue
    | Err e, _ => JFail e
    | _, Err e => JFail e
    | _, _ => JFail EType
    end)).

(** * Several paths to one device *)

(** What happens to the next command: it is carried out; or it does not reach the device; or it
    is carried out and the answer is lost. *)
Inductive fault : Type := Works | CommandLost | AnswerLost.
Definition no_answer : answer := Answer 0 1 0 [] [].
(** A device reached over paths of which the list tells what happens to the next commands; then all work. *)
Definition unreliable {T} (tgt : target T) : target (T * list fault) := fun st cdb data =>
  let (t, fs) := st in
  match fs with
  | CommandLost :: fs => ((t, fs), no_answer)
  | AnswerLost :: fs => ((fst (tgt t cdb data), fs), no_answer)
  | Works :: fs => ((fst (tgt t cdb data), fs), snd (tgt t cdb data))
  | [] => ((fst (tgt t cdb data), []), snd (tgt t cdb data))
  end.
(** The number of commands that get no answer before one does. *)
Fixpoint losses (fs : list fault) : nat :=
  match fs with
  | CommandLost :: fs => Datatypes.S (losses fs)
  | AnswerLost :: fs => Datatypes.S (losses fs)
  | _ => 0
  end.
Definition answer_lost (f : fault) : bool := match f with AnswerLost => true | _ => false end.

(** Try the command on one path after the other, until there is an answer of the device: a
    result or CHECK CONDITION. *)
Fixpoint failover (ds : list nat) (c : command) : job :=
  match ds with
  | [] => JFail EIndex
  | d :: rest => Via d c (fun r =>
      match r with
      | Ok v => JReturn v
      | Err (EAsiCheckCondition s) => JFail (EAsiCheckCondition s)
      | Err e => match rest with [] => JFail e | _ => failover rest c end
      end)
  end.
(** One command after the other, each like that. *)
Fixpoint failing_over (ds : list nat) (cmds : list command) (acc : list pyval) : job :=
  match cmds with
  | [] => JReturn (PList (rev acc))
  | c :: cmds => JCall (failover ds c) (fun r =>
      match r with
      | Ok v => failing_over ds cmds (v :: acc)
      | Err e => JFail e
      end)
  end.
(** Never [n] commands in a row without an answer. *)
Definition fewer_losses (n : nat) (fs : list fault) : Prop := forall i, (losses (skipn i fs) < n)%nat.
