(** * BareSpec: filters that change nothing (C111). *)

From Verif Require Import Base Token Stream StreamSpec.

(** What is read is put out, from streams that end and from streams that fail. *)
Definition changes_nothing (F : Filter) : Prop :=
  (forall s l, Yields s l -> Yields (F s) l) /\ (forall s l e, Fails s l e -> Fails (F s) l e).
