(** Properties of coroutine execution: C12-C17, C63, C64. *)
From Coq Require Import ZArith List Bool Lia.
From Verif Require Import Base Gen SpecGen GenFacts SpecAsync AsyncFacts KeepFacts ExampleGens.
Import ListNotations.
Local Open Scope nat_scope.

(** ** C12: sync_wait runs trees of generators as nested calls *)

Theorem C12_sync_wait_returns : forall S D (g : gen S D) s s' v,
  call_evaluates g s s' (CallReturns v true) ->
  sync_wait_ends g s s' (Returned (RVal v)).
Proof. exact (@sync_wait_value). Qed.

Theorem C12_sync_wait_raises : forall S D (g : gen S D) s s' e,
  call_evaluates g s s' (CallRaises e) ->
  sync_wait_ends g s s' (Threw e).
Proof. exact (@sync_wait_raise). Qed.

(** Conversely nothing else can happen (for coroutines that do not use the corner cases
    of C14, C16 and C63). *)
Theorem C12_sync_wait_nothing_else : forall S D (g : gen S D) s s' o,
  well_mannered g -> sync_wait_ends g s s' o ->
  match o with
  | Returned _ => exists v q, call_evaluates g s s' (CallReturns v q)
  | Threw e => call_evaluates g s s' (CallRaises e)
  end.
Proof. exact (@sync_wait_only). Qed.

Theorem C12_sync_wait_deterministic : forall S D (g : gen S D) s s1 s2 o1 o2,
  sync_wait_ends g s s1 o1 -> sync_wait_ends g s s2 o2 -> s1 = s2 /\ o1 = o2.
Proof. exact (@sync_wait_det). Qed.

(** Three levels: an inner exception is handled in the middle, the value comes out. *)
Definition ex12 : gen nat nat := g_call (g_call (g_raise (EUser 1)) (g_handle (VData 7))) g_end.

Example C12_example : call_evaluates ex12 0 1 (CallReturns (VData 7) true).
Proof.
  eapply ev_call; [reflexivity| |].
  - eapply ev_call_raise; [reflexivity|apply ev_raise; reflexivity|].
    eapply ev_value; [reflexivity|intros ? ?; discriminate|].
    apply ev_finish; [reflexivity|intros ? ?; discriminate].
  - apply ev_finish; [reflexivity|intros ? ?; discriminate].
Qed.
Example C12_example_run : sync_wait 10 ex12 0 = Some (1, Returned (RVal (VData 7))).
Proof. reflexivity. Qed.
Example C12_example_raises : call_evaluates (g_call (g_raise (EUser 3)) (g_end (D := nat))) 0 0 (CallRaises (EUser 3)).
Proof.
  eapply ev_call_raise; [reflexivity|apply ev_raise; reflexivity|apply ev_raise; reflexivity].
Qed.
Lemma g_end_well_mannered : well_mannered (g_end (S := nat) (D := nat)).
Proof. constructor; simpl; intros [v|e] s s1; intros; try discriminate; eauto. Qed.
Example C12_example_well_mannered : well_mannered (g_call (g_val (VData 5)) (g_end (S := nat) (D := nat))).
Proof.
  assert (well_mannered (g_val (S := nat) (VData 5))).
  { constructor; simpl; intros [v|e] s s1; intros; try discriminate; try (inversion H; subst; fail).
    inversion H; subst. split; [intros ? ?; discriminate|apply g_end_well_mannered]. }
  constructor; simpl; intros [v|e] s s1; intros; try discriminate.
  inversion H0; subst. split; [assumption|apply g_end_well_mannered].
Qed.

(** ** C13: exceptions surface at the innermost frame that handles them *)

(** The exception passes through the generators that do not handle it, from the inside out, each of which may put another
    exception in its place, and is thrown into the first that does. *)
Theorem C13_exception_reaches_handler : forall S D (inner : list (gen S D)) e s e' s', thrown inner e s e' s' ->
  forall h outer r b n,
    loop b (length inner + n) (Cor (inner ++ h :: outer) (VExn e) r) s
    = loop b n (Cor (h :: outer) (VExn e') r) s'.
Proof. exact (@throw_through). Qed.

(** If none does, it leaves sync_wait. *)
Theorem C13_unhandled_exception_escapes : forall S D (fs : list (gen S D)) e s e' s', fs <> [] -> thrown fs e s e' s' ->
  forall r b n, (length fs <= n)%nat -> loop b n (Cor fs (VExn e) r) s = Some (s', Raised e').
Proof. exact (@throw_out). Qed.

Theorem C13_handler_stops_exception : forall S D b (h : gen S D) outer e r s s1 y k,
  resume h (Throw e) s = (s1, Yield y k) ->
  match next_step b (Cor (h :: outer) (VExn e) r) s with
  | (_, Continue c) =>
      match y with
      | YVal v => stack c = k :: outer /\ args c = v
      | YGen ch => stack c = ch :: k :: outer /\ args c = VNone
      | YTok t => True
      end
  | _ => match y with YTok _ => True | _ => False end
  end.
Proof. exact (@handler_yields). Qed.

Example C13_example : thrown (S := nat) (D := nat)
  [g_end; Gen (fun i s => (s + 5, Raise (EUser 2))); g_val (VData 3)] (EUser 1) 0 (EUser 2) 5.
Proof. econstructor; [reflexivity|]. econstructor; [reflexivity|]. econstructor; [reflexivity|]. constructor. Qed.
Example C13_example_run :
  loop true 10 (Cor [g_end; g_end; g_handle (VData 9); g_end] (VExn (EUser 1)) (RVal VNone)) 0
  = Some (1, Finished (RVal (VData (D := nat) 9))).
Proof. reflexivity. Qed.

(** ** C14: a handled exception resurfaces if the handler finishes without yielding *)

Theorem C14_handled_exception_resurfaces : forall S D b (h : gen S D) outer e r s s1,
  resume h (Throw e) s = (s1, Stop) ->
  next_step b (Cor (h :: outer) (VExn e) r) s = (s1, Continue (Cor outer (VExn e) r)).
Proof. exact (@swallowed). Qed.

(** The expected guarantee (a handled exception is not seen by the caller) fails: *)
Theorem C14_handled_means_gone_refuted : exists (caller : gen nat nat),
  sync_wait 10 (g_call (g_call (g_raise (EUser 1)) g_swallow) caller) 0 = Some (1, Threw (EUser 1)).
Proof. exists g_end. reflexivity. Qed.

(** Outermost generator: the exception is dropped and a stale value returned. *)
Theorem C14_outermost_returns_stale_value : forall S D b n (h : gen S D) e r s s1,
  resume h (Throw e) s = (s1, Stop) ->
  loop b (Datatypes.S n) (Cor [h] (VExn e) r) s = Some (s1, Finished r).
Proof. exact (@swallowed_outermost). Qed.

Example C14_example :
  sync_wait 10 (g_call (g_raise (EUser 1)) (g_swallow (D := nat))) 0
  = Some (1, Returned (RGen (g_raise (EUser 1)))).
Proof. reflexivity. Qed.

(** ** C15: generators that yield nothing leak a generator object *)

Theorem C15_leaks_generator : forall S D (g : gen S D) s c s1 k s2 s3,
  reaches_call g (Send VNone) s c s1 k ->
  resume c (Send VNone) s1 = (s2, Stop) ->
  resume k (Send VNone) s2 = (s3, Stop) ->
  sync_wait_ends g s s3 (Returned (RGen c)).
Proof. exact (@leak). Qed.

Example C15_example : reaches_call (g_call (g_val (VData 1)) (g_call g_end (g_end (S := nat)))) (Send VNone) 0
   g_end 0 g_end.
Proof.
  eapply rc_call; [reflexivity| |apply rc_here; reflexivity].
  eapply ev_value; [reflexivity|intros ? ?; discriminate|].
  apply ev_finish; [reflexivity|intros ? ?; discriminate].
Qed.

(** ** C16: yielding an exception object raises it *)

Theorem C16_yielded_exception_is_raised : forall S D b n (g : gen S D) rest a r s s1 e k,
  resume g (input_of a) s = (s1, Yield (YVal (VExn e)) k) ->
  loop b (Datatypes.S (Datatypes.S n)) (Cor (g :: rest) a r) s =
  match resume k (Throw e) s1 with
  | (s2, Raise e1) =>
      match rest with
      | [] => Some (s2, Raised e1)
      | _ => loop b n (Cor rest (VExn e1) (RVal (VExn e))) s2
      end
  | _ => loop b (Datatypes.S n) (Cor (k :: rest) (VExn e) (RVal (VExn e))) s1
  end.
Proof. exact (@yielded_exception). Qed.

Example C16_example : sync_wait 5 (g_val (S := nat) (D := nat) (VExn (EUser 4))) 0 = Some (0, Threw (EUser 4)).
Proof. reflexivity. Qed.

(** ** C17: async_wait *)

Theorem C17_async_wait_results : forall S D (gs : list (gen S D)) ss ss' rs,
  length ss = length gs -> length ss' = length gs -> length rs = length gs ->
  Forall tokens_never_fail gs ->
  (forall i g s s' r, nth_error gs i = Some g -> nth_error ss i = Some s ->
     nth_error ss' i = Some s' -> nth_error rs i = Some r ->
     sync_wait_ends g s s' (Returned r)) ->
  exists N, forall n m choose, (N <= n)%nat -> (N <= m)%nat -> fair_choice choose ->
    async_wait n m choose (commands_at gs) ss = (ss', Some (Ok (results_at rs))).
Proof. exact (@async_wait_correct). Qed.

Definition last_choice (j : nat) (l : list nat) : nat := last l 0.
Definition first_choice (j : nat) (l : list nat) : nat := hd 0 l.

Example C17_example_fair : fair_choice last_choice /\ fair_choice first_choice.
Proof.
  split; intros j l H; unfold last_choice, first_choice.
  - destruct (exists_last H) as [l' [a ->]]. rewrite last_last. apply in_or_app; right; left; auto.
  - destruct l; [congruence|left; auto].
Qed.
Definition ex17 : gen nat nat := g_call g_token (g_token).
Example C17_example_last :
  async_wait 20 20 last_choice (commands_at [ex17; ex17; g_val (VData 8)]) [10; 20; 30]
  = ([12; 22; 30], Some (Ok (results_at
      [RTok (fun s => (S s, Ok (VData s))); RTok (fun s => (S s, Ok (VData s))); RVal (VData 8)]))).
Proof. reflexivity. Qed.
Example C17_example_first :
  async_wait 20 20 first_choice (commands_at [ex17; ex17; g_val (VData 8)]) [10; 20; 30]
  = ([12; 22; 30], Some (Ok (results_at
      [RTok (fun s => (S s, Ok (VData s))); RTok (fun s => (S s, Ok (VData s))); RVal (VData 8)]))).
Proof. reflexivity. Qed.
Lemma g_end_tokens : tokens_never_fail (g_end (S := nat) (D := nat)).
Proof. constructor; simpl; intros [v|e] s s1; intros; discriminate. Qed.
Lemma g_token_tokens : tokens_never_fail g_token.
Proof.
  constructor; simpl; intros [v|e] s s1; intros; try discriminate.
  inversion H; subst. split; [eauto|apply g_end_tokens].
Qed.
Example C17_example_tokens : tokens_never_fail ex17.
Proof.
  constructor; simpl; intros [v|e] s s1; intros; try discriminate.
  inversion H; subst. split; apply g_token_tokens.
Qed.

(** ** C63: a failing async result bypasses the generator that waits for it *)

(** Generator [g] waits for token [t] and would go on as [k].  The exception goes to the generators that called [g], from
    the inside out as in C13; [k] is not resumed, whatever it does with exceptions. *)
Theorem C63_failed_token_bypasses_handler : forall S D (g k : gen S D) t e s s1 s2 a,
  resume g (input_of a) s = (s1, Yield (YTok t) k) -> t s1 = (s2, Err e) ->
  forall inner e' s', thrown inner e s2 e' s' -> forall h outer r n,
    loop true (Datatypes.S (length inner + n)) (Cor (g :: inner ++ h :: outer) a r) s
    = loop true n (Cor (h :: outer) (VExn e') (RTok t)) s'.
Proof. exact (@token_failure). Qed.

(** If none of them handles it, it leaves sync_wait. *)
Theorem C63_failed_token_escapes : forall S D (g k : gen S D) t e s s1 s2 a,
  resume g (input_of a) s = (s1, Yield (YTok t) k) -> t s1 = (s2, Err e) ->
  forall outer e' s', thrown outer e s2 e' s' -> forall r n, length outer < n ->
    loop true n (Cor (g :: outer) a r) s = Some (s', Raised e').
Proof. exact (@token_failure_escapes). Qed.

(** The generator [k] has a handler that would have dealt with the error. *)
Definition ex63 (D : Type) (v : val D) : gen nat D :=
  Gen (fun i s => (s, Yield (YTok (fun s => (s, Err (EIO 5)))) (g_handle v))).
Example C63_handled_at_yield_refuted :
  resume (g_handle (VData 1)) (Throw (EIO 5)) 0 = (1, Yield (YVal (VData 1)) g_end) /\
  sync_wait 10 (ex63 nat (VData 1)) 0 = Some (0, Threw (EIO 5)).
Proof. split; reflexivity. Qed.
(** The same generator called by one with a handler: the caller's handler gets the error. *)
Example C63_example : sync_wait 10 (g_call (ex63 nat (VData 1)) (g_handle (VData 2))) 0
  = Some (1, Returned (RVal (VData 2))).
Proof. reflexivity. Qed.

(** ** C64: in async_wait a failing async result aborts all commands *)

Theorem C64_failed_token_aborts_all : forall S D n m choose (cmds : list nat) tbl done (s s1 : S) tbl1 done1 c t s2 e,
  run_ready n cmds tbl done s = (s1, Some (Ok (tbl1, done1))) ->
  tbl1 <> [] ->
  lookup_key (choose m (map fst tbl1)) tbl1 = Some c ->
  cres c = RTok (D := D) t -> t s1 = (s2, Err e) ->
  react n (Datatypes.S m) choose cmds tbl done s = (s2, RRaised e).
Proof. exact (@react_token_failure). Qed.

Example C64_example :
  async_wait 10 10 last_choice (commands_at [g_val (VData 1); ex17; ex63 nat (VData 1)]) [0; 0; 0]
  = ([0; 0; 0], Some (Err (EIO 5))).
Proof. reflexivity. Qed.

Print Assumptions C12_sync_wait_returns.
Print Assumptions C12_sync_wait_raises.
Print Assumptions C12_sync_wait_nothing_else.
Print Assumptions C12_sync_wait_deterministic.
Print Assumptions C13_exception_reaches_handler.
Print Assumptions C13_unhandled_exception_escapes.
Print Assumptions C13_handler_stops_exception.
Print Assumptions C14_handled_exception_resurfaces.
Print Assumptions C14_handled_means_gone_refuted.
Print Assumptions C14_outermost_returns_stale_value.
Print Assumptions C15_leaks_generator.
Print Assumptions C16_yielded_exception_is_raised.
Print Assumptions C17_async_wait_results.
Print Assumptions C63_failed_token_bypasses_handler.
Print Assumptions C63_failed_token_escapes.
Print Assumptions C64_failed_token_aborts_all.
