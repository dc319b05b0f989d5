(** * OnceSpec: vocabulary of C43 and C44. *)

From Verif Require Import Base Token Stream StreamSpec.

(** Every call of Next returns nil and the error [e]. *)
CoInductive Refuses (e : error) (s : TokenStream) : Prop :=
| Refuses_next s' : Nexts s (None, Some e) s' -> Refuses e s' -> Refuses e s.
