(** * CostSpec: vocabulary of C47. *)

From Verif Require Import Base Token Stream StreamSpec.

Section Cost.
Context {X : Type}.
(** One call of Next on the state: result, new state, number of elements moved. *)
Variable step : nat -> X -> outcome (result * X * nat).

(** Calling Next until the end returns the tokens [l], then nil; all calls together move at least [n] elements. *)
Inductive Drained : X -> list token -> nat -> Prop :=
| Drained_end x x' k :
    (exists N, forall m, N <= m -> exists k', step m x = Ret ((None, None), x', k') /\ k <= k') -> Drained x [] k
| Drained_next x t x' k l n :
    (exists N, forall m, N <= m -> exists k', step m x = Ret ((Some t, None), x', k') /\ k <= k') ->
    Drained x' l n -> Drained x (t :: l) (k + n).

(** [calls] calls of Next, whatever they return, move [n] elements altogether. *)
Inductive Called : X -> nat -> nat -> Prop :=
| Called_none x : Called x 0 0
| Called_once x fuel r x' k c n : step fuel x = Ret (r, x', k) -> Called x' c n -> Called x (S c) (k + n).
End Cost.

(** Forgetting the count. *)
Definition forget {A B} (o : outcome (A * B * nat)) : outcome (A * B) :=
  match o with Ret (a, b, _) => Ret (a, b) | Panic => Panic | NoFuel => NoFuel end.
