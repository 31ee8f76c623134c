(** Devices used in the Examples of the Solaris, AIX and Windows properties; models no
    code in /repo. *)
From Coq Require Import ZArith List Bool Lia.
From Verif Require Import Base Gen Executer OsCommon OsSolaris OsAix OsWin32 SpecSg SpecDrivers ExampleLinux.
Import ListNotations.
Open Scope Z_scope.

Definition no_fail (a : answer) : bool := false.
Definition sol_os (a : answer) := solaris_os (A := unit) any_sense (honest_uscsi (fixed_target a) no_fail) 30.
Definition sol_fresh (max : Z) : executer scsicmd (solaris_world (list (bytes * bytes))) :=
  executer_init max (SolarisWorld [] [] None).
Definition ax_os (a : answer) := aix_os (A := unit) any_sense (honest_sc (fixed_target a)) 30 false.
Definition ax_fresh (max : Z) : executer passthru (aix_world (list (bytes * bytes))) :=
  executer_init max (AixWorld [] [] [] None).
Definition wn_os (a : answer) := win_os (A := unit) any_sense (honest_win (fixed_target a)).
Definition wn_async_os (a : answer) := win_async_os (A := unit) any_sense (honest_win (fixed_target a)).
Definition wn_fresh (max : Z) : executer spt (win_world (list (bytes * bytes))) :=
  executer_init max (WinWorld [] [] [] []).

(** An AIX driver whose ioctl fails without leaving a status, with or without an
    invalid-argument code, and Windows drivers whose asynchronous request completes at once
    or fails after it was started. *)
Definition broken_sc (einval : Z) : sc_driver unit := fun q h t =>
  (h, t, ScHdr (sc_version q) 0 0 (sc_flags q) (devflags q) (command_length q) einval
     (autosense_length q) (timeout_value q) (data_length q) (sc_buffer q) (autosense_buffer_ptr q) (scsi_cdb q), true).
Definition hasty_win : win_driver (list (bytes * bytes)) :=
  WinDriver (fun q h t => (h, t, q, None)) (fun q h t => (h, t ++ [(Cdb q, [])], q, (true, 0)))
    (fun q h t => (h, t, q, (true, 0))).
Definition dying_win : win_driver (list (bytes * bytes)) :=
  WinDriver (fun q h t => (h, t, q, None)) (fun q h t => (h, t, q, (false, 997)))
    (fun q h t => (h, t, q, (false, 0))).
