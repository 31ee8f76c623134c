(** Vocabulary for coroutine objects that are used again, and for executers after a failed
    async_wait. *)
From Coq Require Import ZArith List Bool.
From Verif Require Import Base Gen Executer OsCommon SpecSg SpecDrivers Instruct Command SpecDevice SpecCdb SpecExecute SpecReserve SpecAdaptive.
Import ListNotations.
Local Open Scope Z_scope.

(** Waiting for the object does nothing at all and gives None. *)
Definition spent {S D} (g : gen S D) : Prop :=
  forall s n, (1 <= n)%nat ->
    sync_wait n g s = Some (s, Returned (RVal VNone)) /\
    forall m choose, async_wait n m choose [g] s = (s, Some (Ok [RVal VNone])).

(** Waiting for the object does nothing but give value [v] or raise [e]. *)
Definition only_gives {S D} (g : gen S D) (r : result (val D)) : Prop :=
  forall s n, (3 <= n)%nat ->
    sync_wait n g s = Some (s, match r with Ok v => Returned (RVal v) | Err e => Threw e end) /\
    forall m choose, async_wait n m choose [g] s = (s, Some (match r with Ok v => Ok [RVal v] | Err e => Err e end)).

(** Waiting for one object is waiting for the other. *)
Definition goes_on_as {S D} (g g' : gen S D) : Prop :=
  forall s n, sync_wait n g s = sync_wait n g' s /\
    forall m choose, async_wait n m choose [g] s = async_wait n m choose [g'] s.

(** Resumed with [a] in state [s] the object goes on by itself (it yields values, and tokens that succeed) until it yields a token
    whose result raises [e]; then it is the object [k], and the state is [s']. *)
Inductive comes_to_fail {S D} : gen S D -> val D -> S -> gen S D -> S -> exn -> Prop :=
| cf_now : forall g a s s1 t k s2 e, resume g (input_of a) s = (s1, Yield (YTok t) k) -> t s1 = (s2, Err e) -> comes_to_fail g a s k s2 e
| cf_value : forall g a s s1 v g1 k s' e, resume g (input_of a) s = (s1, Yield (YVal v) g1) -> comes_to_fail g1 v s1 k s' e ->
    comes_to_fail g a s k s' e
| cf_token : forall g a s s1 t g1 s2 v k s' e, resume g (input_of a) s = (s1, Yield (YTok t) g1) -> t s1 = (s2, Ok v) ->
    comes_to_fail g1 v s2 k s' e -> comes_to_fail g a s k s' e.

(** [continues p next]: the program [p] may come to run a command or another program and then
    go on with its result as [next] says. *)
Inductive continues : prog -> (result pyval -> prog) -> Prop :=
| continues_do : forall c next, continues (Do c next) next
| continues_call : forall q next, continues (Call q next) next
| continues_later : forall c next r next', continues (next r) next' -> continues (Do c next) next'
| continues_after : forall q next r next', continues (next r) next' -> continues (Call q next) next'.
