(** Specification of a shared disk with persistent reservations (SPC-4, 5.12) and of several
    hosts, on any of the four systems, that use it through the library.  Models no code of
    /repo: the device, the hosts and what their users should see. *)
From Coq Require Import String ZArith List Bool.
From Verif Require Import Base Gen SpecGen Executer OsCommon OsLinux OsSolaris OsAix OsWin32 SpecSg SpecDrivers SpecSession
  Instruct Command SpecDevice SpecCdb SpecExecute Sense SpecSense.
Import ListNotations.
Local Open Scope string_scope.
Local Open Scope list_scope.
Local Open Scope Z_scope.

(** * Persistent reservations *)

(** Types: 1 Write Exclusive, 3 Exclusive Access, 5 and 6 the same for all but registrants,
    7 and 8 the same with all registrants as holders. *)
Definition valid_type (ty : Z) : bool := existsb (Z.eqb ty) [1; 3; 5; 6; 7; 8].
Definition all_registrants (ty : Z) : bool := (ty =? 7) || (ty =? 8).
Definition for_registrants (ty : Z) : bool := 5 <=? ty.
Definition exclusive_access (ty : Z) : bool := (ty =? 3) || (ty =? 6) || (ty =? 8).

(** The generation counter, the registered hosts with their keys, the reservation: the host
    that made it and its type. *)
Record pr_state := PrState { generation : Z; registered : list (nat * Z); held : option (nat * Z) }.

Definition key_of (h : nat) (st : pr_state) : option Z :=
  option_map snd (find (fun p => Nat.eqb (fst p) h) (registered st)).
Definition is_registered (h : nat) (st : pr_state) : bool :=
  match key_of h st with Some _ => true | None => false end.
Definition holds (h : nat) (st : pr_state) : bool :=
  match held st with
  | None => false
  | Some (h0, ty) => if all_registrants ty then is_registered h st else Nat.eqb h h0
  end.

(** Who may read and write (SPC-4, table 61). *)
Definition may_write (h : nat) (st : pr_state) : bool :=
  match held st with
  | None => true
  | Some (_, ty) => holds h st || (for_registrants ty && is_registered h st)
  end.
Definition may_read (h : nat) (st : pr_state) : bool :=
  match held st with
  | None => true
  | Some (_, ty) => holds h st || negb (exclusive_access ty) || (for_registrants ty && is_registered h st)
  end.

Inductive pr_action : Type :=
| Register (key new : Z)
| RegisterIgnore (new : Z)
| MakeReservation (key ty : Z)
| Release (key ty : Z)
| Clear (key : Z)
| Preempt (key victim ty : Z).

(** GOOD, RESERVATION CONFLICT, or CHECK CONDITION. *)
Inductive verdict : Type := Granted | Conflict | Rejected.

Definition next_generation (g : Z) : Z := (g + 1) mod 2 ^ 32.
Definition others (h : nat) (l : list (nat * Z)) : list (nat * Z) := filter (fun p => negb (Nat.eqb (fst p) h)) l.

(** A reservation without holder is released. *)
Definition settled (st : pr_state) : pr_state :=
  match held st with
  | Some (h, ty) =>
    if (if all_registrants ty then match registered st with [] => true | _ => false end
        else negb (is_registered h st))
    then PrState (generation st) (registered st) None else st
  | None => st
  end.

Definition set_key (h : nat) (new : Z) (st : pr_state) : pr_state :=
  settled (PrState (next_generation (generation st))
    (if new =? 0 then others h (registered st)
     else if is_registered h st
     then map (fun p => if Nat.eqb (fst p) h then (h, new) else p) (registered st)
     else registered st ++ [(h, new)]) (held st)).

(** The registrations with the victim's key are removed; if it is the key of the holder, or
    0 when all registrants hold the reservation, host [h] takes the reservation over. *)
Definition takes_over (victim : Z) (st : pr_state) : bool :=
  match held st with
  | None => false
  | Some (h0, ty) =>
    if all_registrants ty then victim =? 0
    else match key_of h0 st with Some k => k =? victim | None => false end
  end.
Definition preempted (h : nat) (victim ty : Z) (st : pr_state) : pr_state * verdict :=
  let g := next_generation (generation st) in
  if takes_over victim st then
    if negb (valid_type ty) then (st, Rejected)
    else (PrState g (filter (fun p => Nat.eqb (fst p) h || negb ((victim =? 0) || (snd p =? victim))) (registered st))
            (Some (h, ty)), Granted)
  else if victim =? 0 then (st, Rejected)
  else if existsb (fun p => snd p =? victim) (registered st)
  then (settled (PrState g (filter (fun p => negb (snd p =? victim)) (registered st)) (held st)), Granted)
  else (st, Conflict).

(** All but REGISTER AND IGNORE EXISTING KEY need the host's own key. *)
Definition with_key (h : nat) (key : Z) (st : pr_state) (r : pr_state * verdict) : pr_state * verdict :=
  match key_of h st with
  | Some k => if k =? key then r else (st, Conflict)
  | None => (st, Conflict)
  end.

Definition pr_step (h : nat) (a : pr_action) (st : pr_state) : pr_state * verdict :=
  match a with
  | Register key new =>
    match key_of h st with
    | Some k => if k =? key then (set_key h new st, Granted) else (st, Conflict)
    | None => if key =? 0 then if new =? 0 then (st, Granted) else (set_key h new st, Granted) else (st, Conflict)
    end
  | RegisterIgnore new =>
    if is_registered h st || negb (new =? 0) then (set_key h new st, Granted) else (st, Granted)
  | MakeReservation key ty =>
    with_key h key st
      (if negb (valid_type ty) then (st, Rejected)
       else match held st with
            | None => (PrState (generation st) (registered st) (Some (h, ty)), Granted)
            | Some (_, ty0) => if holds h st && (ty0 =? ty) then (st, Granted) else (st, Conflict)
            end)
  | Release key ty =>
    with_key h key st
      (match held st with
       | Some (_, ty0) =>
         if negb (holds h st) then (st, Granted)
         else if ty0 =? ty then (PrState (generation st) (registered st) None, Granted) else (st, Rejected)
       | None => (st, Granted)
       end)
  | Clear key => with_key h key st (PrState (next_generation (generation st)) [] None, Granted)
  | Preempt key victim ty => with_key h key st (preempted h victim ty st)
  end.

(** The service action of PERSISTENT RESERVE OUT with its type and keys; PREEMPT AND ABORT has
    the effect of PREEMPT here (there are no tasks to abort). *)
Definition action_of (sa ty key sakey : Z) : option pr_action :=
  if sa =? 0 then Some (Register key sakey)
  else if sa =? 1 then Some (MakeReservation key ty)
  else if sa =? 2 then Some (Release key ty)
  else if sa =? 3 then Some (Clear key)
  else if (sa =? 4) || (sa =? 5) then Some (Preempt key sakey ty)
  else if sa =? 6 then Some (RegisterIgnore sakey)
  else None.

(** The parameter data of READ RESERVATION (SPC-4, 6.15.3): nothing after the header if there is
    no reservation, key 0 if all registrants hold it. *)
Definition reservation_key (st : pr_state) : Z :=
  match held st with
  | Some (h, ty) => if all_registrants ty then 0 else match key_of h st with Some k => k | None => 0 end
  | None => 0
  end.
Definition reservation_data (st : pr_state) : bytes :=
  be_bytes 4 (generation st) ++
  match held st with
  | None => be_bytes 4 0
  | Some (_, ty) => be_bytes 4 16 ++ be_bytes 8 (reservation_key st) ++ zeros 5 ++ [ty] ++ zeros 2
  end.

(** Every host has at most one key, and all numbers are in range. *)
Definition pr_ok (st : pr_state) : Prop :=
  0 <= generation st < 2 ^ 32 /\ NoDup (map fst (registered st)) /\ Forall (fun p => 0 <= snd p < 2 ^ 64) (registered st) /\
  match held st with Some (_, ty) => 0 <= ty < 16 | None => True end.

(** * The shared disk *)

Definition conflict : answer := Answer 24 0 0 [] [].
Definition rejection (sense : bytes) : answer := Answer 2 0 8 [] sense.
Definition verdict_answer (sense : bytes) (v : verdict) : answer :=
  match v with Granted => good [] | Conflict => conflict | Rejected => rejection sense end.

(** A disk that several hosts use: [tgt h] is the disk as host [h] reaches it, [view] its
    reservations, [content] its blocks, [sense] what it says when it rejects a request. *)
Record shared_disk {T} (tgt : nat -> target T) (view : T -> pr_state) (content : T -> Z -> bytes)
  (bs capacity : Z) (sense : bytes) : Prop := SharedDisk {
  sd_block : forall t k, 0 <= k < capacity -> zlen (content t k) = bs;
  sd_sense : conforming_sense sense;
  sd_out : forall h t cdb data sa ty p a, interpret cdb = Some (OpPrOut sa 0 ty (zlen data)) -> pr_basic data = Some p ->
    p_all_tg_pt p = 0 -> p_spec_i_pt p = 0 -> action_of sa ty (p_key p) (p_sa_key p) = Some a ->
    exists t', tgt h t cdb data = (t', verdict_answer sense (snd (pr_step h a (view t)))) /\
      view t' = fst (pr_step h a (view t)) /\ forall k, 0 <= k < capacity -> content t' k = content t k;
  sd_keys : forall h t cdb data alloc, interpret cdb = Some (OpPrIn 0 alloc) ->
    exists t', tgt h t cdb data =
        (t', good (firstn (Z.to_nat alloc) (keys_data (generation (view t)) (map snd (registered (view t)))))) /\
      view t' = view t /\ forall k, 0 <= k < capacity -> content t' k = content t k;
  sd_reservation : forall h t cdb data alloc, interpret cdb = Some (OpPrIn 1 alloc) ->
    exists t', tgt h t cdb data = (t', good (firstn (Z.to_nat alloc) (reservation_data (view t)))) /\
      view t' = view t /\ forall k, 0 <= k < capacity -> content t' k = content t k;
  sd_read : forall h t cdb data lba n f, interpret cdb = Some (OpRead lba n f) -> protect f = 0 ->
    0 <= lba -> 0 <= n -> lba + n <= capacity ->
    exists t', tgt h t cdb data =
        (t', if may_read h (view t) then good (blocks (content t) lba (Z.to_nat n)) else conflict) /\
      view t' = view t /\ forall k, 0 <= k < capacity -> content t' k = content t k;
  sd_write : forall h t cdb data lba n f, interpret cdb = Some (OpWrite lba n f) -> protect f = 0 ->
    0 <= lba -> 0 <= n -> lba + n <= capacity -> zlen data = n * bs ->
    exists t', tgt h t cdb data = (t', if may_write h (view t) then good [] else conflict) /\
      view t' = view t /\ forall k, 0 <= k < capacity ->
        content t' k = if may_write h (view t) then written bs lba n data (content t) k else content t k
}.

(** * What the users should see *)

Definition verdict_result (sense : bytes) (v : verdict) : result pyval :=
  match v with
  | Granted => Ok PNone
  | Conflict => Err EAsiSCSI
  | Rejected => Err (EAsiCheckCondition (pad 255 sense))
  end.

(** READ RESERVATION: without a reservation the fields after the header show zeros where the
    system hands over the whole buffer ([padded]) and None where it hands over what the device sent. *)
Definition reservation_object (padded : bool) (st : pr_state) : pyval :=
  let free := if padded then PInt 0 else PNone in
  PObj "PersistentReserveInReadReservationResponse"
    (("pr_generation", PInt (generation st)) ::
     match held st with
     | Some (_, ty) =>
       [("additional_length", PInt 16); ("reservation_key", PInt (reservation_key st)); ("obsolete_1", PInt 0);
        ("reserved_1", PInt 0); ("pr_type", PInt ty); ("scope", PInt 0); ("obsolete_2", PInt 0)]
     | None =>
       [("additional_length", PInt 0); ("reservation_key", free); ("obsolete_1", free);
        ("reserved_1", free); ("pr_type", free); ("scope", free); ("obsolete_2", free)]
     end).
Definition keys_shown (alloc : Z) (st : pr_state) : pyval :=
  let keys := map snd (registered st) in
  keys_object (generation st) (zlen keys) (if 8 + 8 * zlen keys <=? alloc then PList (map PInt keys) else PNone).

(** Nothing on the disk depends on the part after [capacity]. *)
Definition same_blocks (capacity : Z) (d d' : Z -> bytes) : Prop := forall k, 0 <= k < capacity -> d k = d' k.

(** One command of host [h]: reservations and blocks before and after, and its result. *)
Inductive ideal_step (bs capacity : Z) (sense : bytes) (padded : nat -> bool) (h : nat) :
  command -> pr_state -> (Z -> bytes) -> pr_state -> (Z -> bytes) -> result pyval -> Prop :=
| is_out : forall sa key sakey ty a st d,
    basic_fits key sakey ty [] -> action_of sa ty key sakey = Some a ->
    ideal_step bs capacity sense padded h (PrOutBasic sa key sakey ty []) st d
      (fst (pr_step h a st)) d (verdict_result sense (snd (pr_step h a st)))
| is_keys : forall alloc st d, 8 <= alloc < 2 ^ 16 -> 8 * zlen (registered st) < 2 ^ 32 ->
    ideal_step bs capacity sense padded h (PrIn 0 alloc) st d st d (Ok (keys_shown alloc st))
| is_reservation : forall alloc st d, 24 <= alloc < 2 ^ 16 ->
    ideal_step bs capacity sense padded h (PrIn 1 alloc) st d st d (Ok (reservation_object (padded h) st))
| is_read : forall c lba n st d, read_of c lba n bs -> proper c -> arguments_fit c ->
    0 < n -> lba + n <= capacity -> n * bs < 2 ^ 32 ->
    ideal_step bs capacity sense padded h c st d st d
      (if may_read h st then Ok (PBytes (blocks d lba (Z.to_nat n))) else Err EAsiSCSI)
| is_write : forall c lba data st d, write_of c lba data bs -> proper c -> arguments_fit c ->
    lba + zlen data / bs <= capacity -> zlen data < 2 ^ 32 ->
    ideal_step bs capacity sense padded h c st d st
      (if may_write h st then written bs lba (zlen data / bs) data d else d)
      (if may_write h st then Ok PNone else Err EAsiSCSI).

Inductive ideal_session (bs capacity : Z) (sense : bytes) (padded : nat -> bool) :
  list (nat * command) -> pr_state -> (Z -> bytes) -> pr_state -> (Z -> bytes) -> list (result pyval) -> Prop :=
| id_nil : forall st d, ideal_session bs capacity sense padded [] st d st d []
| id_cons : forall h c cmds st d st1 d1 r st' d' l,
    ideal_step bs capacity sense padded h c st d st1 d1 r ->
    ideal_session bs capacity sense padded cmds st1 d1 st' d' l ->
    ideal_session bs capacity sense padded ((h, c) :: cmds) st d st' d' (r :: l).

(** * Hosts *)

(** An operating system's executer on a device of which only the state [T] is shared between
    hosts: [dev] reads it and [attach] replaces it. *)
Record system (T : Type) : Type := System {
  req : Type; mem : Type; wired : Type;
  os_of : target T -> os_layer req mem (wire wired pyval) scsi_command;
  idle : executer req mem -> T -> Prop;
  dev : executer req mem -> T;
  attach : executer req mem -> T -> executer req mem;
  pads : bool
}.
Arguments req {T} _. Arguments mem {T} _. Arguments wired {T} _. Arguments os_of {T} _ _.
Arguments idle {T} _ _ _. Arguments dev {T} _ _. Arguments attach {T} _ _ _. Arguments pads {T} _.

Definition replaced {R W} (s : executer R W) (w : W) : executer R W :=
  Executer (pending s) (packet_index s) (max_queue_size s) (cb_log s) w.

Definition linux_system T (timeout : Z) : system T :=
  System T sgio (linux_world (sg_state T)) _ (fun tgt => linux_os (A := pyval) parse_sense (honest tgt) timeout)
    linux_idle (fun s => fst (l_dev (world s)))
    (fun s t => replaced s (LinuxWorld (l_heap (world s)) (t, snd (l_dev (world s))) (l_buffer (world s)))) true.
Definition solaris_system T (fails : answer -> bool) (timeout : Z) : system T :=
  System T scsicmd (solaris_world T) _ (fun tgt => solaris_os (A := pyval) parse_sense (honest_uscsi tgt fails) timeout)
    solaris_idle (fun s => s_dev (world s))
    (fun s t => replaced s (SolarisWorld (s_heap (world s)) t (s_buffer (world s)))) true.
Definition aix_system T (timeout : Z) (use_ctypes : bool) : system T :=
  System T passthru (aix_world T) _ (fun tgt => aix_os (A := pyval) parse_sense (honest_sc tgt) timeout use_ctypes)
    aix_idle (fun s => x_dev (world s))
    (fun s t => replaced s (AixWorld (x_heap (world s)) (x_objs (world s)) t (x_buffer (world s)))) true.
Definition win_system T : system T :=
  System T spt (win_world T) _ (fun tgt => win_os (A := pyval) parse_sense (honest_win tgt))
    win_idle (fun s => w_dev (world s))
    (fun s t => replaced s (WinWorld (w_heap (world s)) (w_objs (world s)) t (incoming_packets (world s)))) false.

(** One of the four; on Solaris with an ioctl that does not fail for an answer of the device. *)
Inductive one_of_four {T} : system T -> Prop :=
| on_linux : forall timeout, one_of_four (linux_system T timeout)
| on_solaris : forall fails timeout, (forall a, a_host a = 0 -> fails a = false) -> one_of_four (solaris_system T fails timeout)
| on_aix : forall timeout use_ctypes, one_of_four (aix_system T timeout use_ctypes)
| on_windows : one_of_four (win_system T).

(** The hosts run commands, one at a time, each from the state in which the previous one left
    the device; only the host that runs a command changes. *)
Section Hosts.
Context {T : Type} (sys : nat -> system T) (tgt : nat -> target T).
Definition hosts : Type := forall h, executer (req (sys h)) (mem (sys h)).

Inductive cluster_runs : hosts -> T -> list (nat * (nat * result cdb_object)) -> hosts -> T -> list (result pyval) -> Prop :=
| cr_nil : forall hs t, cluster_runs hs t [] hs t []
| cr_cons : forall (hs hs1 hs' : hosts) t h me obj r rest t' l,
    user_runs (os_of (sys h) (tgt h)) me (attach (sys h) (hs h) t) obj (hs1 h) (shown r) ->
    (forall h', h' <> h -> hs1 h' = hs h') ->
    cluster_runs hs1 (dev (sys h) (hs1 h)) rest hs' t' l ->
    cluster_runs hs t ((h, (me, obj)) :: rest) hs' t' (r :: l).
End Hosts.

(** A program: who runs it, the identity of its callback, the command. *)
Definition program : Type := list (nat * (nat * command)).
Definition plain_program (prog : program) : list (nat * command) := map (fun p => (fst p, snd (snd p))) prog.
Definition objects (prog : program) : list (nat * (nat * result cdb_object)) :=
  map (fun p => (fst p, (fst (snd p), constructed (snd (snd p))))) prog.

(** * Fencing *)

(** While host [b] is kept out: no other host changes the reservations, and [b] itself does
    not register. *)
Definition quiet (b : nat) (p : nat * command) : Prop :=
  match snd p with
  | PrOutBasic sa _ _ _ _ => fst p = b /\ sa <> 0 /\ sa <> 6
  | _ => True
  end.
Definition without {A} (b : nat) (l : list (nat * A)) : list (nat * A) := filter (fun p => negb (Nat.eqb (fst p) b)) l.
(** The results of all hosts but [b]. *)
Definition others_results {A} (b : nat) (prog : list (nat * A)) (l : list (result pyval)) : list (result pyval) :=
  map snd (without b (combine (map fst prog) l)).
(** Commands that change the blocks or the reservations. *)
Definition changes (bs : Z) (c : command) : Prop :=
  match c with
  | PrOutBasic _ _ _ _ _ => True
  | _ => exists lba data, write_of c lba data bs
  end.

(** * A disk in memory *)
Definition reservation_disk (sense : bytes) (bs : Z) (h : nat) : target (pr_state * (Z -> bytes)) := fun t cdb data =>
  match interpret cdb with
  | Some (OpPrOut sa _ ty _) =>
    match pr_basic data with
    | Some p =>
      match action_of sa ty (p_key p) (p_sa_key p) with
      | Some a => let (st, v) := pr_step h a (fst t) in ((st, snd t), verdict_answer sense v)
      | None => (t, rejection sense)
      end
    | None => (t, rejection sense)
    end
  | Some (OpPrIn sa alloc) =>
    if sa =? 0 then (t, good (firstn (Z.to_nat alloc) (keys_data (generation (fst t)) (map snd (registered (fst t))))))
    else if sa =? 1 then (t, good (firstn (Z.to_nat alloc) (reservation_data (fst t))))
    else (t, rejection sense)
  | Some (OpRead lba n _) =>
    (t, if may_read h (fst t) then good (blocks (fun k => pad (Z.to_nat bs) (snd t k)) lba (Z.to_nat n)) else conflict)
  | Some (OpWrite lba n _) =>
    if may_write h (fst t) then ((fst t, written bs lba n data (snd t)), good []) else (t, conflict)
  | _ => (t, rejection sense)
  end.
