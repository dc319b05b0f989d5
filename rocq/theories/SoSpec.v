(** * SoSpec: which words the Stack Overflow generator lists (C63). *)

From Verif Require Import Base Generators GenSpec.

(** The synonyms of a tag as they are listed: with spaces for dashes, without the exceptions. *)
Definition words_of (t : item) : list string :=
  map with_spaces (filter (fun s => if in_dec string_dec s exceptions then false else true) (isynonyms t)).

(** The name of [t] is listed as [w]: it is no exception, no synonym of a tag on its page [p] or an earlier one,
    nor the only synonym of a tag on a later page. *)
Definition name_listed (ps : list (list item)) (t : item) (w : string) : Prop :=
  w = with_spaces (iname t) /\ ~ In w exceptions /\ exists a p b, ps = a ++ p :: b /\ In t p /\ moderator t = false /\
    (forall t', live (a ++ [p]) t' -> ~ In w (words_of t')) /\ (forall t', live b t' -> words_of t' <> [w]).
