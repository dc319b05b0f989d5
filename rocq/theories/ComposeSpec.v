(** * ComposeSpec: letters with diacritics, composed and decomposed (C93). *)

From Verif Require Import Base Utf8 Token DecompTable.
Local Open Scope N_scope.

(** The runes [y] are [x] with some (none, all) of the letters that have one replaced by their decomposition. *)
Inductive decomposed : list N -> list N -> Prop :=
| DC_nil : decomposed [] []
| DC_keep r x y : decomposed x y -> decomposed (r :: x) (r :: y)
| DC_split r ds x y : In (r, ds) decompositions -> decomposed x y -> decomposed (r :: x) (ds ++ y).

(** Combining diacritical marks, U+0300 to U+036F. *)
Definition combining (r : N) : bool := in_range 768 879 r.
Definition marks_of (s : string) : list N := filter combining (runes s).

(** The normal form of a string, for a normalizer with the two functions of package norm. *)
Definition normal_form (isNormal : string -> bool) (normalize : string -> string) (v : string) : string :=
  if isNormal v then v else normalize v.

(** The normalizer makes composed and decomposed letters the same. *)
Definition unifies (isNormal : string -> bool) (normalize : string -> string) : Prop :=
  forall x y, Forall (fun r => valid_rune r = true) x -> decomposed x y ->
  normal_form isNormal normalize (encode x) = normal_form isNormal normalize (encode y).
