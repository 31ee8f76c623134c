(** C116: hosts that take over a disk from a host that holds a persistent reservation. *)
From Coq Require Import String ZArith List Bool Lia PeanoNat.
From Verif Require Import Base Gen SpecGen Executer OsCommon OsLinux OsSolaris OsAix OsWin32 SpecSg SpecDrivers SpecSession Instruct Command
  CdbPrimary SpecDevice SpecCdb SpecExecute Sense SpecSense SpecPortable DiskFacts SpecReserve ReserveFacts SpecAdaptive AdaptiveFacts SpecShared SharedFacts
  SpecTakeover TakeoverFacts.
Import ListNotations.
Local Open Scope string_scope.
Local Open Scope list_scope.
Local Open Scope Z_scope.

(** Host [v] holds the reservation and goes on with any program that reads and writes; all other hosts try to take over, and whoever
    succeeds goes on with a program of its own.  However the commands interleave: up to the takeover host [v] runs as if it
    were alone; from then on exactly one host [w] has the reservation and runs as if it were alone, on the disk as the
    takeover found it, while the WRITEs of [v] raise AsiSCSIError; the others have lost with AsiSCSIError or not tried yet. *)
Theorem C116_takeover : forall T (tgt : nat -> target T) view content bs capacity sense padded, 1 <= bs ->
  shared_disk tgt view content bs capacity sense ->
  forall count v key victim ty sa zombie body t, manned (view t) count v key victim -> one_holder ty -> (forall h, sa h = 4 \/ sa h = 5) ->
  only_io bs capacity zombie -> (forall h, only_io bs capacity (body h)) ->
  let start := cast count v zombie (fun h => taking_over (sa h) (key h) victim ty (body h)) in
  forall trace t' ps', together tgt padded t start trace t' ps' ->
  exists d q, alone bs capacity (content t) zombie d q /\
    ((ps' v = q /\ view t' = view t /\ same_blocks capacity (content t') d /\ forall h, h <> v -> ps' h = start h) \/
     exists w d', (w < count)%nat /\ w <> v /\ held (view t') = Some (w, ty) /\ is_registered v (view t') = false /\
       alone bs capacity d (body w) d' (ps' w) /\ same_blocks capacity (content t') d' /\ shut bs capacity ty q (ps' v) /\
       forall h, h <> v -> h <> w -> ps' h = start h \/ (h < count)%nat /\ ps' h = Fail EAsiSCSI).
Proof.
  intros T tgt view content bs capacity sense padded Hbs Dev count v key victim ty sa zombie body t M Ty Sa Oz Ob start.
  exact (takeover tgt view content bs capacity sense padded Hbs Dev count v key victim ty sa zombie body t M Ty Sa Oz Ob).
Qed.

(** As soon as one of them has ended there is a winner, and all others that end do so with AsiSCSIError. *)
Theorem C116_one_winner : forall T (tgt : nat -> target T) view content bs capacity sense padded, 1 <= bs ->
  shared_disk tgt view content bs capacity sense ->
  forall count v key victim ty sa zombie body t, manned (view t) count v key victim -> one_holder ty -> (forall h, sa h = 4 \/ sa h = 5) ->
  only_io bs capacity zombie -> (forall h, only_io bs capacity (body h)) ->
  forall trace t' ps', together tgt padded t (cast count v zombie (fun h => taking_over (sa h) (key h) victim ty (body h))) trace t' ps' ->
  forall x r, (x < count)%nat -> x <> v -> ended (ps' x) = Some r ->
  exists w d q d', (w < count)%nat /\ w <> v /\ held (view t') = Some (w, ty) /\ alone bs capacity (content t) zombie d q /\
    alone bs capacity d (body w) d' (ps' w) /\ same_blocks capacity (content t') d' /\
    (forall h r, (h < count)%nat -> h <> v -> h <> w -> ended (ps' h) = Some r -> r = Err EAsiSCSI).
Proof.
  intros T tgt view content bs capacity sense padded Hbs Dev count v key victim ty sa zombie body t M Ty Sa Oz Ob.
  exact (one_winner tgt view content bs capacity sense padded Hbs Dev count v key victim ty sa zombie body t M Ty Sa Oz Ob).
Qed.

(** Nobody is stuck. *)
Theorem C116_never_stuck : forall T (tgt : nat -> target T) view content bs capacity sense padded, 1 <= bs ->
  shared_disk tgt view content bs capacity sense ->
  forall count v key victim ty sa zombie body t, manned (view t) count v key victim -> one_holder ty -> (forall h, sa h = 4 \/ sa h = 5) ->
  only_io bs capacity zombie -> (forall h, only_io bs capacity (body h)) ->
  forall trace t' ps' h, together tgt padded t (cast count v zombie (fun h => taking_over (sa h) (key h) victim ty (body h))) trace t' ps' ->
  ended (ps' h) = None -> exists m t1 p1, moves (tgt h) (padded h) t' (ps' h) m t1 p1.
Proof.
  intros T tgt view content bs capacity sense padded Hbs Dev count v key victim ty sa zombie body t M Ty Sa Oz Ob.
  exact (takeover_moves tgt view content bs capacity sense padded Hbs Dev count v key victim ty sa zombie body t M Ty Sa Oz Ob).
Qed.

(** On the system of every host sync_wait ends as its program does. *)
Theorem C116_every_host : forall T (tgt : nat -> target T) count v key victim ty sa zombie body padded t trace t' ps' h
    (sys : system (T * list T)) r y s,
  together tgt padded t (cast count v zombie (fun h => taking_over (sa h) (key h) victim ty (body h))) trace t' ps' ->
  ended (ps' h) = Some r -> one_of_four sys -> pads sys = padded h -> idle sys s (y, met_by h trace) ->
  exists s' last, sync_wait_ends (coroutine (os_of sys (disturbed (tgt h))) (cast count v zombie (fun h => taking_over (sa h) (key h) victim ty (body h)) h))
    s s' (shown r) /\ idle sys s' (last, []).
Proof. intros T tgt count v key victim ty sa zombie body padded t trace t' ps' h sys r y s. apply hosts_together. Qed.

(** A host that does not heed that it lost: what it writes is refused with the types 1 and 3, but written with the types 5 and 6,
    which let all registered hosts write. *)
Theorem C116_loser_goes_on : forall T (tgt : nat -> target T) view content bs capacity sense padded, 1 <= bs ->
  shared_disk tgt view content bs capacity sense ->
  forall count v key victim ty sa t, manned (view t) count v key victim -> one_holder ty -> (forall h, sa h = 4 \/ sa h = 5) ->
  forall w x c lba data, (w < count)%nat -> w <> v -> (x < count)%nat -> x <> v -> x <> w -> writes bs capacity c lba data ->
  exists t1, does (tgt w) (padded w) t (Do (preempt (sa w) (key w) victim ty) finish) t1 (Ok PNone) /\
  exists t2, does (tgt x) (padded x) t1 (Do (preempt (sa x) (key x) victim ty) (fun _ => Do c finish)) t2
      (if for_registrants ty then Ok PNone else Err EAsiSCSI) /\
    same_blocks capacity (content t2) (if for_registrants ty then written bs lba (zlen data / bs) data (content t) else content t).
Proof.
  intros T tgt view content bs capacity sense padded Hbs Dev count v key victim ty sa t M Ty Sa w x c lba data Lw Nw Lx Nx Nxw Wc.
  apply (loser_goes_on tgt view content bs capacity sense padded Hbs Dev count v key victim ty sa t M Ty Sa w x c lba data t); auto.
Qed.

(** ** Examples *)

(** Three hosts; host 0 holds a reservation of type 1. *)
Definition over_state : pr_state := PrState 7 [(0%nat, 5); (1%nat, 11); (2%nat, 22)] (Some (0%nat, 1)).
Definition over_key (h : nat) : Z := if Nat.eqb h 1 then 11 else 22.
Example C116_manned_example : manned over_state 3 0 over_key 5.
Proof.
  constructor.
  - split; [cbn; lia|]. split; [repeat constructor; cbn; intuition discriminate|]. split; [repeat constructor; cbn; lia|cbn; lia].
  - exists 1. split; reflexivity.
  - split; [reflexivity|lia].
  - intros h L N. destruct h as [|[|[|h]]]; try lia; (split; [reflexivity|]); cbn; lia.
  - intros h k I N. cbn [registered over_state In] in I. destruct I as [I|[I|[I|[]]]]; injection I as <- <-; try lia; discriminate.
Qed.
(** Host 0 writes twice, without looking whether it succeeds; the others write once. *)
Definition over_zombie : prog := Do (Write6 3 [1; 2; 3; 4] 4) (fun _ => Do (Write6 3 [5; 6; 7; 8] 4) finish).
Definition over_body (h : nat) : prog := Do (Write6 4 [9; Z.of_nat h; 0; 0] 4) finish.
Lemma over_writes : forall lba a b c e, lba = 3 \/ lba = 4 -> writes 4 16 (Write6 lba [a; b; c; e] 4) lba [a; b; c; e].
Proof.
  intros lba a b c e L. assert (Q : zlen [a; b; c; e] / 4 = 1) by reflexivity.
  split; [repeat split|]. split; [cbn; lia|]. split; [cbn; change (zlen [a; b; c; e]) with 4; cbn; lia|].
  rewrite Q. change (zlen [a; b; c; e]) with 4. lia.
Qed.
Example C116_programs_example : only_io 4 16 over_zombie /\ forall h, only_io 4 16 (over_body h).
Proof.
  split; [|intro h]; cbn [only_io over_zombie over_body].
  - split; [right; do 2 eexists; apply over_writes; auto|]. intro r. split; [right; do 2 eexists; apply over_writes; auto|]. intros [v|e]; exact Logic.I.
  - split; [right; do 2 eexists; apply over_writes; auto|]. intros [v|e]; exact Logic.I.
Qed.
(** Host 0 writes, host 2 takes over, host 1 loses, host 0 is refused, host 2 writes. *)
Example C116_takeover_example : forall T (tgt : nat -> target T) view content sense padded t,
  shared_disk tgt view content 4 16 sense -> view t = over_state ->
  exists trace t' ps', together tgt padded t (cast 3 0 over_zombie (fun h => taking_over 4 (over_key h) 5 1 (over_body h))) trace t' ps' /\
    ps' 0%nat = Fail EAsiSCSI /\ ps' 1%nat = Fail EAsiSCSI /\ ps' 2%nat = Return PNone /\
    content t' 3 = [1; 2; 3; 4] /\ content t' 4 = [9; 2; 0; 0].
Proof.
  intros T tgt view content sense padded t Dev V.
  assert (Hbs : 1 <= 4) by lia.
  assert (P : pr_ok over_state) by (exact (mn_ok _ _ _ _ _ C116_manned_example)).
  eapply (together_ideal tgt view content 4 16 sense padded Hbs Dev 0%nat) with (d := content t);
    [eapply step_write; apply (over_writes 3 1 2 3 4); auto|rewrite V; exact P|intros k _; reflexivity|reflexivity|].
  intros t1 V1 P1 C1. rewrite V in *. change (may_write 0 over_state) with true in *. cbv iota beta in *.
  eapply (together_ideal tgt view content 4 16 sense padded Hbs Dev 2%nat) with (c := preempt 4 (over_key 2) 5 1);
    [eapply (is_out _ _ _ _ _ 4 22 5 1 (Preempt 22 5 1)); [repeat split; try lia; repeat constructor; cbn; lia|reflexivity]|exact P1|exact C1|reflexivity|].
  intros t2 V2 P2 C2. rewrite V1 in *. vm_compute in V2. change (verdict_result sense _) with (Ok PNone).
  eapply (together_ideal tgt view content 4 16 sense padded Hbs Dev 1%nat) with (c := preempt 4 (over_key 1) 5 1);
    [eapply (is_out _ _ _ _ _ 4 11 5 1 (Preempt 11 5 1)); [repeat split; try lia; repeat constructor; cbn; lia|reflexivity]|exact P2|exact C2|reflexivity|].
  intros t3 V3 P3 C3. rewrite V2 in *. vm_compute in V3.
  eapply (together_ideal tgt view content 4 16 sense padded Hbs Dev 0%nat);
    [eapply step_write; apply (over_writes 3 5 6 7 8); auto|exact P3|exact C3|reflexivity|].
  intros t4 V4 P4 C4. rewrite V3 in *. match type of C4 with context [may_write ?h ?s] => change (may_write h s) with false in * end. cbv iota beta in *.
  eapply (together_ideal tgt view content 4 16 sense padded Hbs Dev 2%nat);
    [eapply step_write; apply (over_writes 4 9 2 0 0); auto|exact P4|exact C4|reflexivity|].
  intros t5 V5 P5 C5. rewrite V4 in *. match type of C5 with context [may_write ?h ?s] => change (may_write h s) with true in * end. cbv iota beta in *.
  do 3 eexists. split; [apply tg_nil|]. split; [reflexivity|]. split; [reflexivity|]. split; [reflexivity|].
  rewrite (C5 3), (C5 4) by lia. split; reflexivity.
Qed.
(** Host 2 on Linux. *)
Example C116_linux_example :
  let sense := [112; 0; 5; 0; 0; 0; 0; 10; 0; 0; 0; 0; 36; 0; 0; 0; 0; 0] in
  match sync_wait 300 (coroutine (os_of (linux_system _ 3000) (reservation_disk sense 4 2)) (taking_over 5 22 5 3 (over_body 2)))
    (executer_init 1 (LinuxWorld [] ((over_state, fun _ => []), []) None)) with
  | Some (s, out) => out = shown (Ok PNone) /\ held (fst (fst (l_dev (world s)))) = Some (2%nat, 3) /\ snd (fst (l_dev (world s))) 4 = [9; 2; 0; 0]
  | None => False
  end.
Proof. vm_compute. auto. Qed.
Example C116_loser_example : for_registrants 1 = false /\ for_registrants 3 = false /\ for_registrants 5 = true /\ for_registrants 6 = true /\
  one_holder 1 /\ one_holder 6.
Proof. repeat split; cbn; auto. Qed.

(** All theorems at once: what is printed holds for each of them. *)
Definition all_theorems := (@C116_takeover, @C116_one_winner, @C116_never_stuck, @C116_every_host, @C116_loser_goes_on).
Print Assumptions all_theorems.
