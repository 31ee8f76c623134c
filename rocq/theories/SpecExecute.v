(** Specification of sync_wait(command.execute(executer)): what the user of command objects
    sees and what the device does meanwhile; and of a conforming block device. *)
From Coq Require Import String ZArith List Bool.
From Verif Require Import Base Gen SpecGen Executer OsCommon OsLinux SpecSg SpecSession Instruct Command SpecDevice SpecCdb.
Import ListNotations.
Local Open Scope string_scope.
Local Open Scope Z_scope.

(** What sync_wait shows for a value yielded last, or an exception raised, by execute(). *)
Definition shown {S H} (r : result pyval) : outcome S (dval (wire H pyval)) :=
  match r with
  | Ok p => Returned (RVal (yielded_value p))
  | Err e => Threw e
  end.

(** The user constructs a command object ([r]; the constructor may raise) and runs it with
    sync_wait(object.execute(executer)); [me] is the identity of the callback. *)
Inductive user_runs {R W H} (os : os_layer R W (wire H pyval) scsi_command) (me : nat) :
  executer R W -> result cdb_object -> executer R W -> outcome (executer R W) (dval (wire H pyval)) -> Prop :=
| ur_constructor : forall s e, user_runs os me s (Err e) s (Threw e)
| ur_execute : forall s o s' out, sync_wait_ends (execute os me o) s s' out -> user_runs os me s (Ok o) s' out.

(** One command after the other. *)
Inductive user_session {R W H} (os : os_layer R W (wire H pyval) scsi_command) :
  executer R W -> list (nat * result cdb_object) -> executer R W ->
  list (outcome (executer R W) (dval (wire H pyval))) -> Prop :=
| us_nil : forall s, user_session os s [] s []
| us_cons : forall s me r l s1 out s2 outs,
    user_runs os me s r s1 out -> user_session os s1 l s2 outs ->
    user_session os s ((me, r) :: l) s2 (out :: outs).

(** What happens on the device side: a command that cannot be constructed or packed never
    reaches the device; every other one reaches it once, in order, with its CDB and data,
    and its result is the answer, classified by [expected] and parsed by the command's
    class.  [okc] and [oka] are the commands and answers that the transport can carry. *)
Section Device.
Context {T : Type} (tgt : target T) (expected : scsi_command -> answer -> resp).
Context (okc : scsi_command -> Prop) (oka : answer -> Prop).

Definition result_of (o : cdb_object) (c : scsi_command) (a : answer) : result pyval :=
  match expected c a with
  | RespExn e => Err e
  | RespData d => o_finish o (o_attrs o) d
  end.

Inductive device_session : T -> list (result cdb_object) -> T -> list (result pyval) -> Prop :=
| ds_nil : forall t, device_session t [] t []
| ds_not_constructed : forall t e objs t' l,
    device_session t objs t' l -> device_session t (Err e :: objs) t' (Err e :: l)
| ds_not_packed : forall t o e objs t' l, request o = Err e ->
    device_session t objs t' l -> device_session t (Ok o :: objs) t' (Err e :: l)
| ds_done : forall t o c t1 a objs t' l, request o = Ok c -> okc c ->
    tgt t (command_of c) (data_out c) = (t1, a) -> oka a ->
    device_session t1 objs t' l -> device_session t (Ok o :: objs) t' (result_of o c a :: l).
End Device.

(** The answers whose sense data the library can parse, as far as it tries to (C68). *)
Definition linux_answer (sense_of : bytes -> result unit) (a : answer) : Prop :=
  is_check_condition (a_status a) (a_driver a) = true -> sense_of (pad 255 (a_sense a)) = Ok tt.

(** * A conforming block device *)

(** [n] blocks from [lba] on, one after the other. *)
Fixpoint blocks (content : Z -> bytes) (lba : Z) (n : nat) : bytes :=
  match n with
  | O => []
  | S m => (content lba ++ blocks content (lba + 1) m)%list
  end.
(** The content after writing [data] ([n] blocks of [bs] bytes) from [lba] on. *)
Definition written (bs lba n : Z) (data : bytes) (content : Z -> bytes) : Z -> bytes :=
  fun k => if (lba <=? k) && (k <? lba + n)
           then slice (Z.to_nat ((k - lba) * bs)) (Z.to_nat ((k - lba) * bs + bs)) data
           else content k.
Definition good (data : bytes) : answer := Answer 0 0 0 data [].

(** A target with [capacity] blocks of [bs] bytes: READ and WRITE within the capacity,
    without protection information (RDPROTECT and WRPROTECT zero), succeed, read the content
    and replace it. *)
Record block_device {T} (tgt : target T) (content : T -> Z -> bytes) (bs capacity : Z) : Prop := BlockDevice {
  bd_block : forall t k, 0 <= k < capacity -> zlen (content t k) = bs;
  bd_read : forall t cdb data lba n f, interpret cdb = Some (OpRead lba n f) -> protect f = 0 ->
    0 <= lba -> 0 <= n -> lba + n <= capacity ->
    exists t', tgt t cdb data = (t', good (blocks (content t) lba (Z.to_nat n))) /\
      forall k, 0 <= k < capacity -> content t' k = content t k;
  bd_write : forall t cdb data lba n f, interpret cdb = Some (OpWrite lba n f) -> protect f = 0 ->
    0 <= lba -> 0 <= n -> lba + n <= capacity -> zlen data = n * bs ->
    exists t', tgt t cdb data = (t', good []) /\
      forall k, 0 <= k < capacity -> content t' k = written bs lba n data (content t) k
}.

(** READ and WRITE commands: first block, number of blocks, block size, data. *)
Definition read_of (c : command) (lba n bs : Z) : Prop :=
  match c with
  | Read6 l tl b => l = lba /\ b = bs /\ n = (if tl =? 0 then 256 else tl) /\ (tl = 0 -> bs = 512)
  | Read10 l tl b kw => l = lba /\ b = bs /\ n = tl /\ setting "rdprotect" kw = 0
  | Read12 l tl b kw | Read16 l tl b kw => l = lba /\ b = bs /\ n = tl /\ setting "reserved" kw = 0
  | _ => False
  end.
Definition write_of (c : command) (lba : Z) (data : bytes) (bs : Z) : Prop :=
  match c with
  | Write6 l d b => l = lba /\ d = data /\ b = bs
  | Write10 l d b kw | Write12 l d b kw | Write16 l d b kw =>
      l = lba /\ d = data /\ b = bs /\ setting "wrprotect" kw = 0
  | _ => False
  end.

(** The ideal result of any number of READ and WRITE commands on a disk with this content:
    a write gives None, a read the current content (None instead of an empty string). *)
Inductive disk_session (bs capacity : Z) : (Z -> bytes) -> list command -> (Z -> bytes) -> list (result pyval) -> Prop :=
| dk_nil : forall d, disk_session bs capacity d [] d []
| dk_read : forall d c lba n cmds d' l,
    read_of c lba n bs -> proper c -> arguments_fit c -> lba + n <= capacity -> n * bs < 2 ^ 32 ->
    disk_session bs capacity d cmds d' l ->
    disk_session bs capacity d (c :: cmds) d'
      (Ok (if n =? 0 then PNone else PBytes (blocks d lba (Z.to_nat n))) :: l)
| dk_write : forall d c lba data cmds d' l,
    write_of c lba data bs -> proper c -> arguments_fit c -> lba + zlen data / bs <= capacity -> zlen data < 2 ^ 32 ->
    disk_session bs capacity (written bs lba (zlen data / bs) data d) cmds d' l ->
    disk_session bs capacity d (c :: cmds) d' (Ok PNone :: l).
