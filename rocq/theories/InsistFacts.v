(** Facts about SpecInsist.v. *)
From Coq Require Import ZArith List Bool Lia Permutation.
From Verif Require Import Base BaseFacts Gen SpecGen Executer OsCommon OsLinux SpecSg SpecSession SpecQueue QueueFacts SpecGiveUp GiveUpFacts SpecInsist.
Import ListNotations.
Open Scope Z_scope.

Section Single.
Context {X T : Type} (run : X -> T -> T * answer).
(** One request is out: not executed yet, or executed and not answered. *)
Definition single (x : X) (t : T) (q : queue X T) : Prop :=
  (q_target q = t /\ q_accepted q = [x] /\ q_ready q = []) \/
  (q_target q = fst (run x t) /\ q_accepted q = [] /\ q_ready q = [(x, snd (run x t))]).
Lemma nth_one : forall Y (x y : Y) i, nth_error [x] i = Some y -> i = 0%nat /\ y = x.
Proof. intros Y x y [|i] H; cbn in H; [inversion H; auto|destruct i; discriminate]. Qed.
Lemma single_fetch : forall script x t tt acc ready y a q, single x t (Queue script tt acc ready) -> fetch run script tt acc ready = Some (y, a, q) ->
  y = x /\ a = snd (run x t) /\ q_target q = fst (run x t) /\ q_accepted q = [] /\ q_ready q = [].
Proof.
  induction script as [|[i|i|] rest IH]; intros x t tt acc ready y a q S H; cbn [fetch] in H; [discriminate| | |discriminate].
  - destruct (nth_error acc i) as [z|] eqn:E; [|eapply IH; [|exact H]; exact S].
    destruct S as [(E1 & E2 & E3)|(E1 & E2 & E3)]; cbn in E1, E2, E3; subst; [|destruct i; discriminate].
    apply nth_one in E as [-> ->]. rewrite (surjective_pairing (run x t)) in H. eapply IH; [|exact H]. right. cbn. auto.
  - destruct (nth_error ready i) as [[z b]|] eqn:E; [|eapply IH; [|exact H]; exact S].
    destruct S as [(E1 & E2 & E3)|(E1 & E2 & E3)]; cbn in E1, E2, E3; subst; [destruct i; discriminate|].
    apply nth_one in E as [-> E]. inversion E; subst. inversion H; subst. cbn. auto.
Qed.
Lemma single_passed : forall script x t tt acc ready, single x t (Queue script tt acc ready) -> single x t (passed run script tt acc ready).
Proof.
  induction script as [|[i|i|] rest IH]; intros x t tt acc ready S; cbn [passed].
  - exact S.
  - destruct (nth_error acc i) as [z|] eqn:E; [|apply IH; exact S].
    destruct S as [(E1 & E2 & E3)|(E1 & E2 & E3)]; cbn in E1, E2, E3; subst; [|destruct i; discriminate].
    apply nth_one in E as [-> ->]. rewrite (surjective_pairing (run x t)). apply IH. right. cbn. auto.
  - apply IH. exact S.
  - exact S.
Qed.
Lemma single_next : forall x t q y a q', single x t q -> next run q = Some (y, a, q') ->
  y = x /\ a = snd (run x t) /\ q_target q' = fst (run x t) /\ outstanding q' = [].
Proof.
  intros x t [script tt acc ready] y a q' S H. destruct (single_fetch _ _ _ _ _ _ _ _ _ S H) as (A & B & C & D & E).
  unfold outstanding. rewrite D, E. auto.
Qed.
Lemma single_silence : forall x t q, single x t q -> single x t (after_silence run q).
Proof. intros x t [script tt acc ready] S. apply single_passed. exact S. Qed.
Lemma single_out : forall x t q, single x t q -> outstanding q = [x].
Proof. intros x t q [(_ & A & B)|(_ & A & B)]; unfold outstanding; rewrite A, B; reflexivity. Qed.
End Single.

Section Insist.
Context {T : Type} (tgt : target T) (ok : answer -> Prop) (answers : forall t cdb data, ok (snd (tgt t cdb data))).
Notation run := (execute_label tgt).
Lemma ok_run : forall x t, ok (snd (run x t)).
Proof. intros x t. apply answers. Qed.

(** Waiting for one request. *)
Lemma waits_for : forall k max n x t q, single run x t q ->
  (exists i q1, (i < k)%nat /\ outstanding q1 = [] /\ q_target q1 = fst (run x t) /\
     queue_program tgt ok max n q (repeat WaitAll (S i)) n q1 [report (x, snd (run x t))] (repeat (Failed (EIO 0)) i ++ [Went])) \/
  (exists q1, single run x t q1 /\ queue_program tgt ok max n q (repeat WaitAll k) n q1 [] (repeat (Failed (EIO 0)) k)).
Proof.
  induction k as [|k IH]; intros max n x t q S; [right; exists q; split; [exact S|constructor]|].
  destruct (next run q) as [[[y a] q1]|] eqn:N.
  - destruct (single_next _ _ _ _ _ _ _ S N) as (-> & -> & A & B). left. exists 0%nat, q1. split; [lia|]. split; [exact B|]. split; [exact A|].
    cbn [repeat app]. change [report (x, snd (run x t))] with (map report [(x, snd (run x t))] ++ []).
    eapply qp_wait; [eapply ho_next; [exact N|apply ok_run|constructor]|exact B|constructor].
  - assert (O : outstanding q <> []) by (rewrite (single_out _ _ _ _ S); discriminate).
    destruct (IH max n x t (after_silence run q) (single_silence _ _ _ _ S)) as [(i & q1 & L & A & B & P)|(q1 & A & P)].
    + left. exists (Datatypes.S i), q1. split; [lia|]. split; [exact A|]. split; [exact B|]. cbn [repeat app] in *.
      change [report (x, snd (run x t))] with (map report [] ++ [report (x, snd (run x t))]). eapply qp_wait_given_up; [constructor|exact O|exact N|exact P].
    + right. exists q1. split; [exact A|]. cbn [repeat]. change (@nil (nat * resp)) with (map report [] ++ @nil (nat * resp)).
      eapply qp_wait_given_up; [constructor|exact O|exact N|exact P].
Qed.

(** One command of the program. *)
Lemma insist_one : forall k max me c script t, 1 <= max -> fits c ->
  let x := Label 0 me c in let t1 := fst (tgt t (command_of c) (data_out c)) in let a := snd (tgt t (command_of c) (data_out c)) in
  (exists q1, outstanding q1 = [] /\ q_target q1 = t1 /\
     queue_program tgt ok max 0 (Queue script t [] []) [Call me c] 1 q1 [(me, linux_expected c a)] [Answered (linux_expected c a)]) \/
  (exists i q1, (i < k)%nat /\ outstanding q1 = [] /\ q_target q1 = t1 /\
     queue_program tgt ok max 0 (Queue script t [] []) (Call me c :: repeat WaitAll (S i)) 1 q1 [(me, linux_expected c a)]
       (repeat (Failed (EIO 0)) (S i) ++ [Went])) \/
  (exists q1, (q_target q1 = t \/ q_target q1 = t1) /\
     queue_program tgt ok max 0 (Queue script t [] []) (Call me c :: repeat WaitAll k) 1 q1 [] (repeat (Failed (EIO 0)) (S k))).
Proof.
  intros k max me c script t M F x t1 a.
  assert (S : single run x t (accept x (Queue script t [] []))) by (left; cbn; auto).
  assert (L : zlen (outstanding (Queue script t (@nil label) [])) < max) by (cbn; lia).
  assert (I : in_time max 0 (Queue script t (@nil label) [])) by constructor.
  destruct (next run (accept x (Queue script t [] []))) as [[[y b] q1]|] eqn:N.
  - left. destruct (single_next _ _ _ _ _ _ _ S N) as (-> & -> & A & B). exists q1. split; [exact B|]. split; [exact A|].
    change [(me, linux_expected c a)] with (map report ([] ++ [(x, snd (run x t))]) ++ []). change 1 with (0 + 1).
    eapply (qp_call tgt ok max 0 _ me c (snd (run x t)) []); [exact F|exact L|exact I| |constructor].
    eapply ho_next; [exact N|apply ok_run|constructor].
  - right. destruct (waits_for k max (0 + 1) x t _ (single_silence _ _ _ _ S)) as [(i & q1 & J & A & B & P)|(q1 & A & P)].
    + left. exists i, q1. split; [exact J|]. split; [exact A|]. split; [exact B|]. cbn [repeat app].
      change [(me, linux_expected c a)] with (map report [] ++ [report (x, snd (run x t))]). change 1 with (0 + 1).
      eapply (qp_call_given_up tgt ok max 0 _ me c []); [exact F|exact L|exact I|constructor|cbn; tauto|exact N|exact P].
    + right. exists q1. split; [destruct A as [(A & _)|(A & _)]; auto|]. cbn [repeat].
      change (@nil (nat * resp)) with (map report [] ++ @nil (nat * resp)). change 1 with (0 + 1).
      eapply (qp_call_given_up tgt ok max 0 _ me c []); [exact F|exact L|exact I|constructor|cbn; tauto|exact N|exact P].
Qed.
End Insist.

Section Programs.
Context {T A : Type} (sense_of : bytes -> result unit) (tgt : target T) (timeout : Z).
Notation ok := (fun a => is_check_condition (a_status a) (a_driver a) = true -> sense_of (pad 255 (a_sense a)) = Ok tt).
Notation run := (execute_label tgt).
Notation os := (linux_os (A := A) sense_of (patient tgt) timeout).

Lemma program_target : forall s script t ops n' q' log l, queue_idle s script t ->
  queue_program tgt ok (max_queue_size s) 0 (Queue script t [] []) ops n' q' log l ->
  NoDup (callbacks ops) -> (forall me, In me (callbacks ops) -> ~ In me (map fst (cb_log s))) ->
  exists s', program_runs os s ops s' l /\ q_target (l_dev (world s')) = q_target q'.
Proof.
  intros s script t ops n' q' log l Hi H ND Hl. pose proof (idle_linked timeout _ _ _ Hi) as L. destruct Hi as (_ & H2 & _).
  destruct (program (A := A) sense_of tgt timeout (max_queue_size s) (packet_index s) H2 _ _ _ _ _ _ _ H s _ L eq_refl ND Hl)
    as (Q' & s' & L' & E' & C' & R').
  exists s'. split; [exact R'|]. rewrite (lk_dev _ _ _ _ _ _ L'), <- E'. reflexivity.
Qed.
Lemma wait_callbacks : forall k, callbacks (repeat WaitAll k) = [].
Proof. induction k; auto. Qed.

Theorem insisting : forall k cmds s script t, queue_idle s script t -> (forall t cdb data, ok (snd (tgt t cdb data))) ->
  Forall fits (map snd cmds) -> NoDup (map fst cmds) -> (forall me, In me (map fst cmds) -> ~ In me (map fst (cb_log s))) ->
  exists ops l t' done s', insists tgt k t cmds ops l t' done /\ program_runs os s ops s' l /\ q_target (l_dev (world s')) = t' /\
    (done = true -> pending s' = [] /\ cb_log s' = cb_log s ++ in_turn tgt t cmds /\
       t' = executed_all tgt (map (fun p => as_sent (snd p)) cmds) t).
Proof.
  intros k cmds. induction cmds as [|[me c] cmds IH]; intros s script t Hi Hok Hf ND Hl.
  - exists [], [], t, true, s. split; [constructor|]. split; [constructor|]. destruct Hi as (P & _ & _ & ->).
    split; [reflexivity|]. intros _. split; [exact P|]. split; [symmetry; apply app_nil_r|reflexivity].
  - cbn [map fst snd] in *. pose proof (Forall_inv Hf) as F1. pose proof (Forall_inv_tail Hf) as F2. inversion ND as [|? ? N1 N2]; subst.
    assert (M : 1 <= max_queue_size s) by (destruct Hi as (_ & X & _); lia).
    assert (C : forall i, callbacks (Call me c :: repeat WaitAll i) = [me]) by (intro i; cbn; f_equal; apply wait_callbacks).
    assert (C1 : NoDup [me]) by (repeat constructor; cbn; tauto).
    assert (C2 : forall m, In m [me] -> ~ In m (map fst (cb_log s))) by (intros m [<-|[]]; apply Hl; cbn; auto).
    assert (G2 : forall (s1 : executer sgio (linux_world (queue sg_hdr T))) rp, cb_log s1 = cb_log s ++ [(me, rp)] -> forall m, In m (map fst cmds) -> ~ In m (map fst (cb_log s1))).
    { intros s1 rp G m Hm. rewrite G, map_app, in_app_iff. cbn. intros [X|[X|[]]]; [exact (Hl m (or_intror Hm) X)|subst; contradiction]. }
    cbn [in_turn]. unfold executed_all. cbn [fold_left as_sent fst snd].
    destruct (tgt t (command_of c) (data_out c)) as [t1 a] eqn:E.
    destruct (insist_one tgt ok Hok k (max_queue_size s) me c script t M F1) as [(q1 & O & Q & P)|[(i & q1 & I & O & Q & P)|(q1 & Q & P)]]; rewrite E in *; cbn [fst snd] in *.
    + destruct (queue_programs (A := A) sense_of tgt timeout _ _ _ _ _ _ _ _ Hi P) as (s1 & R & G & _ & J); [exact C1|exact C2|].
      specialize (J O). rewrite Q in J. destruct (IH s1 _ _ J Hok F2 N2 (G2 _ _ G)) as (ops & l & t' & done & s' & D & R' & W & V).
      exists (Call me c :: ops), (Answered (linux_expected c a) :: l), t', done, s'. split; [eapply in_answered; eauto|].
      split; [exact (program_runs_app _ _ _ _ _ _ _ _ R _ _ _ R')|]. split; [exact W|].
      intro H. destruct (V H) as (V1 & V2 & V3). split; [exact V1|]. split; [rewrite V2, G, <- app_assoc; reflexivity|exact V3].
    + destruct (queue_programs (A := A) sense_of tgt timeout _ _ _ _ _ _ _ _ Hi P) as (s1 & R & G & _ & J); [rewrite C; exact C1|rewrite C; exact C2|].
      specialize (J O). rewrite Q in J. destruct (IH s1 _ _ J Hok F2 N2 (G2 _ _ G)) as (ops & l & t' & done & s' & D & R' & W & V).
      exists (Call me c :: repeat WaitAll (S i) ++ ops), (repeat (Failed (EIO 0)) (S i) ++ Went :: l), t', done, s'. split; [eapply in_late; eauto|].
      split; [|split; [exact W|]].
      * replace (repeat (Failed (EIO 0)) (S i) ++ Went :: l) with ((repeat (Failed (EIO 0)) (S i) ++ [Went]) ++ l) by (rewrite <- app_assoc; reflexivity).
        exact (program_runs_app _ _ _ _ _ _ _ _ R _ _ _ R').
      * intro H. destruct (V H) as (V1 & V2 & V3). split; [exact V1|]. split; [rewrite V2, G, <- app_assoc; reflexivity|exact V3].
    + destruct (program_target _ _ _ _ _ _ _ _ Hi P) as (s1 & R & W); [rewrite C; exact C1|rewrite C; exact C2|].
      exists (Call me c :: repeat WaitAll k), (repeat (Failed (EIO 0)) (S k)), (q_target q1), false, s1.
      split; [apply in_lost; rewrite E; exact Q|]. split; [exact R|]. split; [exact W|discriminate].
Qed.

(** Going on without waiting. *)
Theorem overtakes : forall s rest t me1 c1 me2 c2 t2 a2 t1 a1, queue_idle s ([Silence; Run 1; HandOver 0; Run 0; HandOver 0] ++ rest) t ->
  (forall t cdb data, ok (snd (tgt t cdb data))) -> fits c1 -> fits c2 -> 2 <= max_queue_size s -> me1 <> me2 ->
  ~ In me1 (map fst (cb_log s)) -> ~ In me2 (map fst (cb_log s)) ->
  tgt t (command_of c2) (data_out c2) = (t2, a2) -> tgt t2 (command_of c1) (data_out c1) = (t1, a1) ->
  exists s', program_runs os s [Call me1 c1; Call me2 c2; WaitAll] s' [Failed (EIO 0); Answered (linux_expected c2 a2); Went] /\
    cb_log s' = cb_log s ++ [(me2, linux_expected c2 a2); (me1, linux_expected c1 a1)] /\ queue_idle s' rest t1.
Proof.
  intros s rest t me1 c1 me2 c2 t2 a2 t1 a1 Hi Hok F1 F2 M N L1 L2 E2 E1.
  set (x1 := Label 0 me1 c1). set (x2 := Label (0 + 1) me2 c2).
  assert (O2 : ok a2) by (specialize (Hok t (command_of c2) (data_out c2)); rewrite E2 in Hok; exact Hok).
  assert (O1 : ok a1) by (specialize (Hok t2 (command_of c1) (data_out c1)); rewrite E1 in Hok; exact Hok).
  assert (P : queue_program tgt ok (max_queue_size s) 0 (Queue ([Silence; Run 1; HandOver 0; Run 0; HandOver 0] ++ rest) t [] [])
      [Call me1 c1; Call me2 c2; WaitAll] (0 + 1 + 1) (Queue rest t1 [] []) [(me2, linux_expected c2 a2); (me1, linux_expected c1 a1)]
      [Failed (EIO 0); Answered (linux_expected c2 a2); Went]).
  { change [(me2, linux_expected c2 a2); (me1, linux_expected c1 a1)] with
      (map report [] ++ (map report ([] ++ [(x2, a2)]) ++ (map report [(x1, a1)] ++ []))).
    eapply (qp_call_given_up tgt ok (max_queue_size s) 0 _ me1 c1 []); [exact F1|cbn; lia|constructor|constructor|cbn; tauto|reflexivity|].
    eapply (qp_call tgt ok (max_queue_size s) (0 + 1) _ me2 c2 a2 [] (Queue ([Run 0; HandOver 0] ++ rest) t2 [x1] [])); [exact F2|cbn; lia| | |].
    - constructor; [change (0 + 1 - max_queue_size s < 0); lia|constructor].
    - cbn [app]. eapply ho_next; [|exact O2|constructor]. unfold next, accept. cbn. unfold execute_label. cbn. rewrite E2. reflexivity.
    - eapply (qp_wait tgt ok (max_queue_size s) (0 + 1 + 1) _ [(x1, a1)] (Queue rest t1 [] [])); [|reflexivity|constructor].
      eapply ho_next; [|exact O1|constructor]. unfold next. cbn. unfold execute_label. cbn. rewrite E1. reflexivity. }
  destruct (queue_programs (A := A) sense_of tgt timeout _ _ _ _ _ _ _ _ Hi P) as (s' & R & G & _ & J).
  - cbn. repeat constructor; cbn; intuition congruence.
  - cbn. intros m [<-|[<-|[]]]; assumption.
  - exists s'. split; [exact R|]. split; [exact G|]. exact (J eq_refl).
Qed.

(** Trying again. *)
Theorem repeated : forall s rest t me1 me2 c t1 a1 t2 a2, queue_idle s ([Run 0; Silence; Run 0; HandOver 1; HandOver 0] ++ rest) t ->
  (forall t cdb data, ok (snd (tgt t cdb data))) -> fits c -> 2 <= max_queue_size s -> me1 <> me2 ->
  ~ In me1 (map fst (cb_log s)) -> ~ In me2 (map fst (cb_log s)) ->
  tgt t (command_of c) (data_out c) = (t1, a1) -> tgt t1 (command_of c) (data_out c) = (t2, a2) ->
  exists s', program_runs os s [Call me1 c; Call me2 c; WaitAll] s' [Failed (EIO 0); Answered (linux_expected c a2); Went] /\
    cb_log s' = cb_log s ++ [(me2, linux_expected c a2); (me1, linux_expected c a1)] /\ queue_idle s' rest t2.
Proof.
  intros s rest t me1 me2 c t1 a1 t2 a2 Hi Hok F M N L1 L2 E1 E2.
  set (x1 := Label 0 me1 c). set (x2 := Label (0 + 1) me2 c).
  assert (O1 : ok a1) by (specialize (Hok t (command_of c) (data_out c)); rewrite E1 in Hok; exact Hok).
  assert (O2 : ok a2) by (specialize (Hok t1 (command_of c) (data_out c)); rewrite E2 in Hok; exact Hok).
  assert (P : queue_program tgt ok (max_queue_size s) 0 (Queue ([Run 0; Silence; Run 0; HandOver 1; HandOver 0] ++ rest) t [] [])
      [Call me1 c; Call me2 c; WaitAll] (0 + 1 + 1) (Queue rest t2 [] []) [(me2, linux_expected c a2); (me1, linux_expected c a1)]
      [Failed (EIO 0); Answered (linux_expected c a2); Went]).
  { change [(me2, linux_expected c a2); (me1, linux_expected c a1)] with
      (map report [] ++ (map report ([] ++ [(x2, a2)]) ++ (map report [(x1, a1)] ++ []))).
    eapply (qp_call_given_up tgt ok (max_queue_size s) 0 _ me1 c [] (accept x1 (Queue ([Run 0; Silence; Run 0; HandOver 1; HandOver 0] ++ rest) t [] [])));
      [exact F|cbn; lia|constructor|constructor|cbn; tauto| |].
    { unfold next, accept. cbn. unfold execute_label. cbn. rewrite E1. reflexivity. }
    replace (after_silence run (accept x1 (Queue ([Run 0; Silence; Run 0; HandOver 1; HandOver 0] ++ rest) t [] [])))
      with (Queue ([Run 0; HandOver 1; HandOver 0] ++ rest) t1 [] [(x1, a1)])
      by (unfold after_silence, accept; cbn; unfold execute_label; cbn; rewrite E1; reflexivity).
    eapply (qp_call tgt ok (max_queue_size s) (0 + 1) _ me2 c a2 [] (Queue ([HandOver 0] ++ rest) t2 [] [(x1, a1)])); [exact F|cbn; lia| | |].
    - constructor; [change (0 + 1 - max_queue_size s < 0); lia|constructor].
    - cbn [app]. eapply ho_next; [|exact O2|constructor]. unfold next, accept. cbn. unfold execute_label. cbn. rewrite E2. reflexivity.
    - eapply (qp_wait tgt ok (max_queue_size s) (0 + 1 + 1) _ [(x1, a1)] (Queue rest t2 [] [])); [|reflexivity|constructor]. eapply ho_next; [|exact O1|constructor]. reflexivity. }
  destruct (queue_programs (A := A) sense_of tgt timeout _ _ _ _ _ _ _ _ Hi P) as (s' & R & G & _ & J).
  - cbn. repeat constructor; cbn; intuition congruence.
  - cbn. intros m [<-|[<-|[]]]; assumption.
  - exists s'. split; [exact R|]. split; [exact G|]. exact (J eq_refl).
Qed.
End Programs.
