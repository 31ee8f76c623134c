(** Properties of the file objects and context managers: C30, C31, C73. *)
From Coq Require Import ZArith List Bool Lia.
From Verif Require Import Base UnixIo SpecIo Contexts UnixFacts.
Import ListNotations.
Open Scope Z_scope.

(** ** C30: UnixFile.read *)

(** Exactly when and how it ends: at the first poll that finds the descriptor readable it
    returns what the OS gives; at the first look at the clock beyond the timeout it raises
    IOError; an error of select is passed on. *)
Theorem C30_exact : forall env size timeout r,
  (exists fuel l, unix_read env timeout size fuel = Some (l, r)) <->
  exists k, kept_waiting env timeout k /\
    ((select env k = Ok true /\ r = os_read env size) \/
     (select env k = Ok false /\ clock env 0 + timeout < clock env (S k) /\ r = Err (EIO 0)) \/
     (exists e, select env k = Err e /\ r = Err e)).
Proof. exact read_exact. Qed.

(** The descriptor is read at most once, as the last call, right after a poll that found it
    readable. *)
Theorem C30_reads_only_when_ready : forall env size timeout fuel l r,
  unix_read env timeout size fuel = Some (l, r) ->
  forall pre n post, l = pre ++ ReadFd n :: post ->
  n = size /\ post = [] /\ exists pre', pre = pre' ++ [Polled true].
Proof. exact read_trace. Qed.

(** It gives up: at the latest after the poll before the clock shows the timeout, and if
    every look at the clock is at least [d] later than the one before, after at most
    timeout/d + 1 polls. *)
Theorem C30_gives_up : forall env size timeout n, clock env 0 + timeout < clock env (S n) ->
  exists l r, unix_read env timeout size (S n) = Some (l, r).
Proof. exact read_ends. Qed.
Theorem C30_poll_bound : forall env size timeout d, 0 < d -> 0 <= timeout ->
  (forall j, clock env j + d <= clock env (S j)) ->
  exists l r, unix_read env timeout size (S (Z.to_nat (timeout / d))) = Some (l, r).
Proof. exact read_poll_bound. Qed.

(** Readable at the third poll; never readable; readable only after the time is up, which
    is not noticed. *)
Example C30_example :
  let env := IoEnv (fun i => 10 * Z.of_nat i) (fun i => Ok (Nat.eqb i 2)) (fun n => Ok (repeat 7 (Z.to_nat n))) in
  unix_read env 60 2 9 = Some ([LookedAtClock 0; Polled false; Slept; LookedAtClock 10; Polled false; Slept;
                                LookedAtClock 20; Polled true; ReadFd 2], Ok [7; 7]) /\
  option_map snd (unix_read (IoEnv (clock env) (fun _ => Ok false) (os_read env)) 60 2 9) = Some (Err (EIO 0)) /\
  option_map snd (unix_read (IoEnv (fun i => 100 * Z.of_nat i) (fun i => Ok (Nat.eqb i 1)) (os_read env)) 60 2 9)
    = Some (Err (EIO 0)).
Proof. vm_compute. auto. Qed.

(** ** C31: context managers *)

(** The handle is closed exactly once, after the body, which gets the executer of the
    manager; the result is the body's unless closing fails. *)
Theorem C31_closed_once : forall V m p open_result close_result (body : executer_class * option Z -> result V) f k,
  opens p = Some f -> open_result = Ok tt -> gives m p = Some k ->
  with_statement m p open_result close_result body =
    ([Opened f; Closed], match close_result with Ok _ => body k | Err e => Err e end).
Proof. exact context_gives. Qed.

(** If the handle is not opened nothing is closed and the body does not run. *)
Theorem C31_not_opened : forall V m p open_result close_result (body : executer_class * option Z -> result V) e,
  p = POther /\ e = EAsiGeneric \/ p <> POther /\ open_result = Err e ->
  with_statement m p open_result close_result body = ([], Err e).
Proof. exact context_not_opened. Qed.

(** A handle is left open in exactly one case: linux_sg used on Windows, where the executer
    takes no timeout. *)
Theorem C31_left_open : forall V m p open_result close_result (body : executer_class * option Z -> result V) f,
  fst (with_statement m p open_result close_result body) = [Opened f] <->
  m = MLinuxSg /\ p = PWindows /\ open_result = Ok tt /\ f = CWin32File.
Proof. exact context_leak. Qed.

(** The body does not run then. *)
Theorem C31_left_open_raises : forall V close_result (body : executer_class * option Z -> result V),
  with_statement MLinuxSg PWindows (Ok tt) close_result body = ([Opened CWin32File], Err EType).
Proof. reflexivity. Qed.

Example C31_example :
  with_statement MLinuxSg PLinux (Ok tt) (Ok tt) (fun k => Ok (snd k)) = ([Opened (CUnixFile false); Closed], Ok (Some 3000)) /\
  with_statement MSolaris PSolaris (Ok tt) (Ok tt) (fun _ => Err (EUser 1) : result Z) = ([Opened (CUnixFile true); Closed], Err (EUser 1)) /\
  with_statement MAix PAix (Err (EIO 2)) (Ok tt) (fun _ => Ok 1) = ([], Err (EIO 2)) /\
  with_statement MLinuxDm PLinux (Ok tt) (Ok tt) (fun k => Ok k) = ([Opened (CUnixFile false); Closed], Ok (CLinuxIoctl, None)) /\
  with_statement MLinuxSg PWindows (Ok tt) (Ok tt) (fun _ => Ok 1) = ([Opened CWin32File], Err EType).
Proof. vm_compute. auto. Qed.

(** ** C73: closing twice *)
Theorem C73_win_close_twice : forall handle ok h, ok handle = true ->
  let '(h1, handle1, r1) := win_close handle ok h in
  win_close handle1 ok h1 = (h1, -1, Ok tt) /\ r1 = Ok tt /\
  closed h1 = (if handle =? -1 then closed h else closed h ++ [handle]).
Proof. exact win_close_twice. Qed.
Theorem C73_unix_close_twice : forall fd h, In fd (opened h) ->
  let '(h1, r1) := unix_close fd h in
  r1 = Ok tt /\ closed h1 = closed h ++ [fd] /\ unix_close fd h1 = (h1, Err (EIO 9)).
Proof. exact unix_close_twice. Qed.

Example C73_example :
  let h := Handles [3; 5] [] in
  win_close 5 (fun _ => true) h = (Handles [3] [5], -1, Ok tt) /\
  unix_close 5 h = (Handles [3] [5], Ok tt) /\ unix_close 5 (Handles [3] [5]) = (Handles [3] [5], Err (EIO 9)).
Proof. vm_compute. auto. Qed.

Print Assumptions C30_exact.
Print Assumptions C30_reads_only_when_ready.
Print Assumptions C30_gives_up.
Print Assumptions C30_poll_bound.
Print Assumptions C31_closed_once.
Print Assumptions C31_not_opened.
Print Assumptions C31_left_open.
Print Assumptions C31_left_open_raises.
Print Assumptions C73_win_close_twice.
Print Assumptions C73_unix_close_twice.
