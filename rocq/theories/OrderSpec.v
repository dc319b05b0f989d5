(** * OrderSpec: vocabulary of C71 - C73. *)

From Verif Require Import Base Unicode Token Stream StreamSpec FilterSpec SynSpec.

(** On streams of the tokens [l], [F] and [G] can be applied in either order. *)
Definition either_order (F G : Filter) (l : list token) : Prop := forall s,
  (Yields s l -> exists l', Yields (F (G s)) l' /\ Yields (G (F s)) l') /\
  (forall e, Fails s l e -> exists l', Fails (F (G s)) l' e /\ Fails (G (F s)) l' e).

(** Two tokens spelled with the same letters, and both punctuation or not, both space or not. *)
Definition similar (U : unicode) (ignoreCase : bool) (ignored : list N) (t u : token) : Prop :=
  tpunct t = tpunct u /\ tspace t = tspace u /\ letters U ignoreCase ignored (tvalue t) = letters U ignoreCase ignored (tvalue u).

(** [o1] is made of [l1] as [o2] of [l2]: tokens are kept at the same places, and runs of equal length are replaced
    at the same places, by the same lemma (or dropped). *)
Inductive same_replacements (U : unicode) : list token -> list token -> list token -> list token -> Prop :=
| SR_nil : same_replacements U [] [] [] []
| SR_keep t u l1 l2 o1 o2 : same_replacements U l1 l2 o1 o2 -> same_replacements U (t :: l1) (u :: l2) (t :: o1) (u :: o2)
| SR_replace a b c g l1 l2 o1 o2 : length a = length b -> a <> [] -> canonical_token U c g ->
    same_replacements U l1 l2 o1 o2 -> same_replacements U (a ++ l1) (b ++ l2) (g ++ o1) (g ++ o2).

(** [g] is a run of tokens of [l]. *)
Definition run_of (g l : list token) : Prop := g <> [] /\ exists a b, l = a ++ g ++ b.

(** Of several tokens with the same text the first one satisfies [p] if any does. *)
Definition first_decides (p : token -> bool) (l : list token) : Prop :=
  forall a t b u c, l = a ++ t :: b ++ u :: c -> (forall x, In x a -> tvalue x <> tvalue t) -> tvalue u = tvalue t -> p u = true -> p t = true.
