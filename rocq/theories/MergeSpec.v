(** * MergeSpec: vocabulary of C107. *)

From Verif Require Import Base Utf8 Unicode Token Stream StreamSpec.

(** On streams of the tokens [l], [F] followed by [G] gives what [H] gives. *)
Definition as_one (F G H : Filter) (l : list token) : Prop := forall s,
  (Yields s l -> exists l', Yields (G (F s)) l' /\ Yields (H s) l') /\
  (forall e, Fails s l e -> exists l', Fails (G (F s)) l' e /\ Fails (H s) l' e).
