(** Lemmas on file objects and context managers. *)
From Coq Require Import ZArith List Bool Lia.
From Verif Require Import Base UnixIo SpecIo Contexts.
Import ListNotations.
Open Scope Z_scope.

Section Read.
Context (env : io_env) (size : Z).

(** Not readable at polls i .. k-1, and not too late after each of them. *)
Definition waited (deadline : Z) (i k : nat) : Prop :=
  forall j, (i <= j < k)%nat -> select env j = Ok false /\ clock env (S j) <= deadline.

Lemma loop_exact : forall deadline fuel i,
  match read_loop env deadline size fuel i with
  | None => waited deadline i (i + fuel)
  | Some (l, r) => exists k, (i <= k < i + fuel)%nat /\ waited deadline i k /\
      ((select env k = Ok true /\ r = os_read env size) \/
       (select env k = Ok false /\ deadline < clock env (S k) /\ r = Err (EIO 0)) \/
       (exists e, select env k = Err e /\ r = Err e))
  end.
Proof.
  induction fuel as [|fuel IH]; intros i; cbn.
  - intros j Hj. lia.
  - destruct (select env i) as [[|]|e] eqn:E.
    + exists i. split; [lia|]. split; [intros j Hj; lia|]. auto.
    + destruct (Z.ltb_spec deadline (clock env (S i))) as [Hd|Hd].
      * exists i. split; [lia|]. split; [intros j Hj; lia|]. auto.
      * specialize (IH (S i)). destruct (read_loop env deadline size fuel (S i)) as [[l r]|].
        -- destruct IH as (k & H1 & H2 & H3). exists k. split; [lia|]. split; [|exact H3].
           intros j Hj. destruct (Nat.eq_dec j i) as [->|Hn]; [auto|]. apply H2. lia.
        -- intros j Hj. destruct (Nat.eq_dec j i) as [->|Hn]; [auto|]. apply IH. lia.
    + exists i. split; [lia|]. split; [intros j Hj; lia|]. eauto.
Qed.

Lemma loop_det : forall deadline fuel i k, (i <= k)%nat -> waited deadline i k -> (k < i + fuel)%nat ->
  (select env k = Ok true -> exists l, read_loop env deadline size fuel i = Some (l, os_read env size)) /\
  (select env k = Ok false -> deadline < clock env (S k) ->
     exists l, read_loop env deadline size fuel i = Some (l, Err (EIO 0))) /\
  (forall e, select env k = Err e -> exists l, read_loop env deadline size fuel i = Some (l, Err e)).
Proof.
  induction fuel as [|fuel IH]; intros i k Hik Hw Hf; [lia|]. cbn.
  destruct (Nat.eq_dec i k) as [->|Hn].
  - split; [|split].
    + intros E. rewrite E. eauto.
    + intros E Hd. rewrite E. destruct (Z.ltb_spec deadline (clock env (S k))); [eauto|lia].
    + intros e E. rewrite E. eauto.
  - destruct (Hw i) as [E Hd]; [lia|]. rewrite E.
    destruct (Z.ltb_spec deadline (clock env (S i))); [lia|].
    destruct (IH (S i) k) as (H1 & H2 & H3); [lia| |lia|].
    + intros j Hj. apply Hw. lia.
    + split; [|split].
      * intros X. destruct (H1 X) as [l ->]. eauto.
      * intros X Y. destruct (H2 X Y) as [l ->]. eauto.
      * intros e X. destruct (H3 e X) as [l ->]. eauto.
Qed.

Lemma loop_trace : forall deadline fuel i l r, read_loop env deadline size fuel i = Some (l, r) ->
  forall pre n post, l = pre ++ ReadFd n :: post ->
  n = size /\ post = [] /\ exists pre', pre = pre' ++ [Polled true].
Proof.
  induction fuel as [|fuel IH]; intros i l r H pre n post Hl; [discriminate|]. cbn in H.
  destruct (select env i) as [[|]|e].
  - inversion H; subst. destruct pre as [|a [|b pre]]; inversion H1; subst.
    + split; [reflexivity|]. split; [reflexivity|]. exists []. reflexivity.
    + destruct pre; discriminate.
  - destruct (deadline <? clock env (S i)).
    + inversion H; subst. destruct pre as [|a [|b [|c pre]]]; try discriminate. destruct pre; discriminate.
    + destruct (read_loop env deadline size fuel (S i)) as [[l2 r2]|] eqn:E; [|discriminate].
      inversion H; subst. destruct pre as [|a [|b [|c pre]]]; try discriminate.
      cbn in H1. inversion H1. subst a b c. destruct (IH _ _ _ E pre n post H5) as (X1 & X2 & pre' & X3).
      split; [exact X1|]. split; [exact X2|]. exists (Polled false :: Slept :: LookedAtClock (clock env (S i)) :: pre').
      rewrite X3. reflexivity.
  - inversion H; subst. destruct pre; discriminate.
Qed.

Lemma read_trace : forall timeout fuel l r, unix_read env timeout size fuel = Some (l, r) ->
  forall pre n post, l = pre ++ ReadFd n :: post ->
  n = size /\ post = [] /\ exists pre', pre = pre' ++ [Polled true].
Proof.
  intros timeout fuel l r H pre n post Hl. unfold unix_read in H.
  destruct (read_loop env (clock env 0 + timeout) size fuel 0) as [[l2 r2]|] eqn:E; [|discriminate].
  inversion H; subst. destruct pre as [|a pre]; [discriminate|]. cbn in H1. inversion H1; subst.
  destruct (loop_trace _ _ _ _ _ E pre n post eq_refl) as (X1 & X2 & pre' & X3).
  split; [exact X1|]. split; [exact X2|]. exists (LookedAtClock (clock env 0) :: pre'). rewrite X3. reflexivity.
Qed.

Lemma kept_waited : forall timeout k, kept_waiting env timeout k -> waited (clock env 0 + timeout) 0 k.
Proof. intros timeout k H j Hj. apply H. lia. Qed.

Theorem read_exact : forall timeout r,
  (exists fuel l, unix_read env timeout size fuel = Some (l, r)) <->
  exists k, kept_waiting env timeout k /\
    ((select env k = Ok true /\ r = os_read env size) \/
     (select env k = Ok false /\ clock env 0 + timeout < clock env (S k) /\ r = Err (EIO 0)) \/
     (exists e, select env k = Err e /\ r = Err e)).
Proof.
  intros timeout r. split.
  - intros (fuel & l & H). unfold unix_read in H.
    pose proof (loop_exact (clock env 0 + timeout) fuel 0) as X.
    destruct (read_loop env (clock env 0 + timeout) size fuel 0) as [[l2 r2]|]; [|discriminate].
    inversion H; subst. destruct X as (k & X1 & X2 & X3). exists k. split; [|exact X3].
    intros j Hj. apply X2. lia.
  - intros (k & Hk & H). exists (S k).
    destruct (loop_det (clock env 0 + timeout) (S k) 0 k) as (H1 & H2 & H3); [lia|apply kept_waited; auto|lia|].
    unfold unix_read.
    destruct H as [[E ->]|[(E & Hd & ->)|(e & E & ->)]].
    + destruct (H1 E) as [l ->]. eauto.
    + destruct (H2 E Hd) as [l ->]. eauto.
    + destruct (H3 e E) as [l ->]. eauto.
Qed.

Theorem read_ends : forall timeout n, clock env 0 + timeout < clock env (S n) ->
  exists l r, unix_read env timeout size (S n) = Some (l, r).
Proof.
  intros timeout n Hc. unfold unix_read.
  pose proof (loop_exact (clock env 0 + timeout) (S n) 0) as X.
  destruct (read_loop env (clock env 0 + timeout) size (S n) 0) as [[l r]|]; [eauto|].
  destruct (X n) as [_ X2]; [lia|]. lia.
Qed.

(** Each reading of the clock at least [d] later than the one before. *)
Theorem read_poll_bound : forall timeout d, 0 < d -> 0 <= timeout ->
  (forall j, clock env j + d <= clock env (S j)) ->
  exists l r, unix_read env timeout size (S (Z.to_nat (timeout / d))) = Some (l, r).
Proof.
  intros timeout d Hd Ht Hs. apply read_ends.
  assert (H : forall n, clock env 0 + Z.of_nat n * d <= clock env n).
  { induction n as [|n IH]; [lia|]. specialize (Hs n). lia. }
  specialize (H (S (Z.to_nat (timeout / d)))).
  rewrite Nat2Z.inj_succ, Z2Nat.id in H by (apply Z.div_pos; lia).
  pose proof (Z.mul_succ_div_gt timeout d Hd). nia.
Qed.
End Read.

(** ** Closing *)
Theorem win_close_twice : forall handle ok h, ok handle = true ->
  let '(h1, handle1, r1) := win_close handle ok h in
  win_close handle1 ok h1 = (h1, -1, Ok tt) /\ r1 = Ok tt /\
  closed h1 = (if handle =? -1 then closed h else closed h ++ [handle]).
Proof.
  intros handle ok h Ho. unfold win_close. destruct (Z.eqb_spec handle (-1)) as [E|E].
  - subst. cbn. auto.
  - rewrite Ho. cbn. auto.
Qed.

Theorem unix_close_twice : forall fd h, In fd (opened h) ->
  let '(h1, r1) := unix_close fd h in
  r1 = Ok tt /\ closed h1 = closed h ++ [fd] /\ unix_close fd h1 = (h1, Err (EIO 9)).
Proof.
  intros fd h Hin. unfold unix_close.
  replace (existsb (Z.eqb fd) (opened h)) with true
    by (symmetry; apply existsb_exists; exists fd; split; [auto|apply Z.eqb_refl]).
  cbn. split; [reflexivity|]. split; [reflexivity|].
  replace (existsb (Z.eqb fd) (filter (fun x => negb (x =? fd)) (opened h))) with false; [reflexivity|].
  symmetry. apply not_true_is_false. rewrite existsb_exists. intros (x & H1 & H2).
  apply filter_In in H1. destruct H1 as [_ H1]. apply Z.eqb_eq in H2. subst x. rewrite Z.eqb_refl in H1. discriminate.
Qed.

(** ** Context managers *)
Theorem context_exact : forall V m p open_result close_result (body : executer_class * option Z -> result V) f k,
  create_os_file p = Ok f -> open_result = Ok tt -> make_executer m p = Ok k ->
  with_statement m p open_result close_result body =
    ([Opened f; Closed], match close_result with Ok _ => body k | Err e => Err e end).
Proof.
  intros V m p o c body f k H1 H2 H3. unfold with_statement, enter. rewrite H1, H2, H3. cbn.
  destruct (body k) as [v|e]; cbn; destruct c as [[]|e2]; reflexivity.
Qed.

Theorem context_gives : forall V m p open_result close_result (body : executer_class * option Z -> result V) f k,
  opens p = Some f -> open_result = Ok tt -> gives m p = Some k ->
  with_statement m p open_result close_result body =
    ([Opened f; Closed], match close_result with Ok _ => body k | Err e => Err e end).
Proof.
  intros V m p o c body f k H1 H2 H3. apply context_exact; [|exact H2|].
  - destruct p; inversion H1; reflexivity.
  - destruct m, p; inversion H3; try reflexivity; inversion H1.
Qed.

Theorem context_not_opened : forall V m p open_result close_result (body : executer_class * option Z -> result V) e,
  p = POther /\ e = EAsiGeneric \/ p <> POther /\ open_result = Err e ->
  with_statement m p open_result close_result body = ([], Err e).
Proof.
  intros V m p o c body e [[-> ->]|[Hp ->]]; [reflexivity|]. destruct p; try reflexivity. contradiction.
Qed.

Theorem context_leak : forall V m p open_result close_result (body : executer_class * option Z -> result V) f,
  fst (with_statement m p open_result close_result body) = [Opened f] <->
  m = MLinuxSg /\ p = PWindows /\ open_result = Ok tt /\ f = CWin32File.
Proof.
  intros V m p o c body f. split.
  - unfold with_statement, enter.
    destruct p, o as [[]|e], m; cbn;
      try (destruct (body _) as [v|e1]; cbn); try (destruct c as [[]|e2]; cbn); intros H; try discriminate; inversion H; auto.
  - intros (-> & -> & -> & ->). reflexivity.
Qed.
