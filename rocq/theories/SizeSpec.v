(** * SizeSpec: how much a text can grow (C104). *)

From Verif Require Import Base Utf8 Token Stream StreamSpec.

(** What the filter delivers is at most [p]/[q] times as long (in bytes) as what its source delivers. *)
Definition grows (p q : nat) (F : Filter) : Prop :=
  forall s l, Yields s l -> exists o, Yields (F s) o /\ q * String.length (text o) <= p * String.length (text l).

(** The same for sources of valid UTF-8. *)
Definition grows_utf8 (p q : nat) (F : Filter) : Prop :=
  forall s l, Yields s l -> (forall t, In t l -> valid_utf8 (tvalue t) = true) ->
  exists o, Yields (F s) o /\ q * String.length (text o) <= p * String.length (text l).

Definition product (l : list nat) : nat := fold_right Nat.mul 1 l.
