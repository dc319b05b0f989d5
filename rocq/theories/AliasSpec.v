(** * AliasSpec: vocabulary of C82. *)

From Verif Require Import Base Token Stream Aliasing.

(** The elements of a slice can be changed, not its length. *)
Definition possible (m m' : mem) : Prop :=
  length (m_words m') = length (m_words m) /\ length (m_runes m') = length (m_runes m) /\
  length (m_funcs m') = length (m_funcs m).

Definition changes (ops : list op) (m : mem) : Prop := In (Change m) ops.

(** The same operations without the changes. *)
Definition unchanged (ops : list op) : list op :=
  filter (fun o => match o with Change _ => false | _ => true end) ops.

(** Filters of kind [K] do not notice changes of their arguments. *)
Definition independent (K : maker) : Prop :=
  forall fuel m ops, (forall m', changes ops m' -> possible m m') ->
  session K fuel m ops = session K fuel m (unchanged ops).

(** The results of [n] calls of Next on a stream. *)
Fixpoint calls (fuel n : nat) (s : TokenStream) : outcome (list result) :=
  match n with
  | O => Ret []
  | S n' => do (r, s') <- Next fuel s; do rs <- calls fuel n' s'; Ret (r :: rs)
  end.
