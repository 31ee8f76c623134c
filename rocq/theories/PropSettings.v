(** C90 and C91: attributes assigned on a command object between construction and
    execute(). *)
From Coq Require Import String ZArith List Bool Lia.
From Verif Require Import Base OsCommon Instruct Command SpecDevice SpecCdb SpecSettings SettingsFacts.
Import ListNotations.
Local Open Scope string_scope.
Local Open Scope list_scope.
Local Open Scope Z_scope.

(** C90: whatever was assigned before, assigning a value that fits changes the bits that the
    standard gives to the attribute (and the number of bytes read, if the attribute is
    the transfer length of a READ or an allocation length), and nothing else. *)
Theorem C90_setting : forall c kw r name p v,
  issued_with kw c = Ok r -> In (name, p) (places c) -> 0 <= v < 2 ^ Z.of_nat (p_width p) ->
  issued_with ((name, v) :: kw) c = Ok (changed c name p v r).
Proof. exact set_one. Qed.

Example C90_setting_read16 :
  issued_with [] (Read16 5 1 512 []) = Ok (ReadCmd [136; 0; 0; 0; 0; 0; 0; 0; 0; 5; 0; 0; 0; 1; 0; 0] 512)
  /\ issued_with [("mmc4", 1)] (Read16 5 1 512 []) =
     Ok (ReadCmd [136; 0; 0; 0; 0; 0; 0; 0; 0; 5; 0; 0; 0; 1; 128; 0] 512)
  /\ issued_with [("transfer_length", 258); ("mmc4", 1)] (Read16 5 1 512 []) =
     Ok (ReadCmd [136; 0; 0; 0; 0; 0; 0; 0; 0; 5; 0; 0; 1; 2; 128; 0] (512 * 258)).
Proof. vm_compute. auto. Qed.
(** The buffer of a WRITE stays as it is: the CDB now announces two blocks, one is sent. *)
Example C90_setting_write10 :
  issued_with [("transfer_length", 2)] (Write10 7 (repeat 1 4) 4 []) =
  Ok (WriteCmd [42; 0; 0; 0; 0; 7; 0; 0; 2; 0] (repeat 1 4)).
Proof. vm_compute. reflexivity. Qed.
(** RESERVE(10) declares its operation code as a default, so that it can be changed. *)
Example C90_setting_reserve10 :
  issued_with [("operation_code", 87)] (Reserve10 0) = issued (Release10 0)
  /\ issued_with [("operation_code", 86)] (Release10 0) = issued (Release10 0).
Proof. vm_compute. auto. Qed.

(** A value that does not fit is refused: no command is sent. *)
Theorem C90_refused : forall c kw r name p v,
  issued_with kw c = Ok r -> In (name, p) (places c) -> ~ 0 <= v < 2 ^ Z.of_nat (p_width p) ->
  issued_with ((name, v) :: kw) c = Err EInstruct \/ issued_with ((name, v) :: kw) c = Err EAssertion.
Proof. exact set_refused. Qed.
Example C90_refused_cases :
  issued_with [("fua", 2)] (Write10 7 (repeat 1 4) 4 []) = Err EInstruct
  /\ issued_with [("number_of_logical_blocks", 256)] (CompareAndWrite 7 (repeat 1 4) 1 2 []) = Err EAssertion
  /\ issued_with [("group_number", -1)] (Read10 0 0 512 []) = Err EInstruct.
Proof. vm_compute. auto. Qed.

(** The control byte, last in the CDB, is 0 unless it is set; set, it has NACA as bit 2 and the
    vendor specific bits as bits 6 and 7, and the rest of the CDB is the same. *)
Theorem C90_control : forall c naca vendor r,
  proper c -> takes_control c -> issued c = Ok r -> 0 <= naca < 2 -> 0 <= vendor < 4 ->
  exists r', issued_with (control_settings naca vendor) c = Ok r' /\
    last (command_of r) 0 = 0 /\ command_of r' = removelast (command_of r) ++ [4 * naca + 64 * vendor].
Proof. exact control_byte. Qed.
Example C90_control_tur :
  issued TestUnitReady = Ok (ReadCmd [0; 0; 0; 0; 0; 0] 0)
  /\ issued_with (control_settings 1 2) TestUnitReady = Ok (ReadCmd [0; 0; 0; 0; 0; 132] 0).
Proof. vm_compute. auto. Qed.

(** LOG SENSE, RECEIVE DIAGNOSTIC RESULTS and PERSISTENT RESERVE IN and OUT silently ignore it,
    also if the values make no sense. *)
Theorem C90_control_ignored : forall c kw, ~ takes_control c ->
  forall naca vendor, issued_with (control_settings naca vendor ++ kw) c = issued_with kw c.
Proof. exact control_ignored. Qed.
Example C90_control_ignored_case :
  ~ takes_control (PrIn 0 8) /\ issued_with (control_settings 1 77) (PrIn 0 8) = Ok (ReadCmd [94; 0; 0; 0; 0; 0; 0; 0; 8; 0] 8).
Proof. split; [exact (fun H => H)|vm_compute; reflexivity]. Qed.
(** So that "cmd.control = ..." reaches the device for every command is wrong. *)
Theorem C90_control_always_refuted :
  ~ (forall c naca vendor r, proper c -> issued c = Ok r -> 0 <= naca < 2 -> 0 <= vendor < 4 ->
     exists r', issued_with (control_settings naca vendor) c = Ok r' /\
       command_of r' = removelast (command_of r) ++ [4 * naca + 64 * vendor]).
Proof.
  intros H. specialize (H (PrIn 0 8) 1 0 (ReadCmd [94; 0; 0; 0; 0; 0; 0; 0; 8; 0] 8) Logic.I eq_refl ltac:(lia) ltac:(lia)).
  destruct H as [r' [H1 H2]].
  assert (E : issued_with (control_settings 1 0) (PrIn 0 8) = Ok (ReadCmd [94; 0; 0; 0; 0; 0; 0; 0; 8; 0] 8))
    by (vm_compute; reflexivity).
  rewrite E in H1. injection H1 as <-. discriminate H2.
Qed.

(** C91: an attribute that has no place in the CDB of the class can be set to anything without
    any effect: misspelt names go unnoticed. *)
Theorem C91_ignored : forall c kw name v, ~ In name (map fst (places c)) ->
  issued_with ((name, v) :: kw) c = issued_with kw c.
Proof. exact set_ignored. Qed.
(** The group number of UNMAP is called GROUP_NUMBER, unlike that of the other commands; the
    protection field of READ(12) and READ(16) is called reserved; the address of READ(6) and
    WRITE(6) is kept in two parts. *)
Example C91_ignored_names :
  ~ In "group_number" (map fst (places (Unmap [] []))) /\
  ~ In "rdprotect" (map fst (places (Read16 0 1 512 []))) /\
  ~ In "logical_block_address" (map fst (places (Read6 0 1 512))) /\
  ~ In "operation_code" (map fst (places (PrIn 0 8))).
Proof. cbn. repeat split; intuition discriminate. Qed.

(** The values at the time of execute() count: only the last assignment to each attribute
    matters, in whatever order they are made. *)
Theorem C91_last_wins : forall c kw name v w,
  issued_with ((name, v) :: (name, w) :: kw) c = issued_with ((name, v) :: kw) c.
Proof. exact set_twice. Qed.
Example C91_last_wins_case :
  issued_with [("fua", 0); ("fua", 9)] (Read10 1 1 512 []) = issued (Read10 1 1 512 [])
  /\ issued_with [("fua", 9)] (Read10 1 1 512 []) = Err EInstruct.
Proof. vm_compute. auto. Qed.
Theorem C91_any_order : forall c kw x y v w, x <> y ->
  issued_with ((x, v) :: (y, w) :: kw) c = issued_with ((y, w) :: (x, v) :: kw) c.
Proof. exact set_swap. Qed.
Example C91_any_order_case :
  issued_with [("fua", 1); ("dpo", 1)] (Read10 1 1 512 []) = Ok (ReadCmd [40; 24; 0; 0; 0; 1; 0; 0; 1; 0] 512)
  /\ issued_with [("dpo", 1); ("fua", 1)] (Read10 1 1 512 []) = Ok (ReadCmd [40; 24; 0; 0; 0; 1; 0; 0; 1; 0] 512).
Proof. vm_compute. auto. Qed.

(** A command object can be reused for another address by assigning logical_block_address:
    it is then the command that the constructor would have made for that address. *)
Theorem C91_reuse : forall c bits lba,
  proper c -> address_bits c = Some bits -> is_ok (issued c) -> 0 <= lba < 2 ^ bits ->
  issued_with [("logical_block_address", lba)] c = issued (at_address lba c).
Proof. exact reuse. Qed.
Example C91_reuse_case :
  issued_with [("logical_block_address", 513)] (Write10 7 (repeat 1 4) 4 [("fua", 1)]) =
  Ok (WriteCmd [42; 8; 0; 0; 2; 1; 0; 0; 1; 0] (repeat 1 4)).
Proof. vm_compute. reflexivity. Qed.
(** But not READ(6) and WRITE(6), which go on at the old address. *)
Theorem C91_reuse_six : forall lba new tl bs buffer kw,
  issued_with (("logical_block_address", new) :: kw) (Read6 lba tl bs) = issued_with kw (Read6 lba tl bs) /\
  issued_with (("logical_block_address", new) :: kw) (Write6 lba buffer bs) = issued_with kw (Write6 lba buffer bs).
Proof. intros. split; apply set_ignored; cbn; intuition discriminate. Qed.
Example C91_reuse_six_case :
  issued_with [("logical_block_address", 9)] (Read6 7 1 512) = Ok (ReadCmd [8; 0; 0; 7; 1; 0] 512)
  /\ issued (Read6 9 1 512) = Ok (ReadCmd [8; 0; 0; 9; 1; 0] 512).
Proof. vm_compute. auto. Qed.

Print Assumptions C90_setting.
Print Assumptions C90_refused.
Print Assumptions C90_control.
Print Assumptions C90_control_ignored.
Print Assumptions C90_control_always_refuted.
Print Assumptions C91_ignored.
Print Assumptions C91_last_wins.
Print Assumptions C91_any_order.
Print Assumptions C91_reuse.
Print Assumptions C91_reuse_six.
