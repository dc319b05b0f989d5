(** * SharedSpec: vocabulary of C83. *)

From Verif Require Import Base Token Stream StreamSpec Shared.

(** Stream number 0 is the source [s], every other one was made from one with a smaller number by a predicate. *)
Definition over (h : heap) (s : TokenStream) (subs : list ((token -> bool) * nat)) : Prop :=
  h = Source s :: map (fun pu => Sub (fst pu) (snd pu)) subs /\
  forall i p up, nth_error subs i = Some (p, up) -> up <= i.

(** Token [t] passes all predicates between stream number [i] and the source. *)
Inductive passes (subs : list ((token -> bool) * nat)) (t : token) : nat -> Prop :=
| Passes_source : passes subs t 0
| Passes_sub i p up : nth_error subs i = Some (p, up) -> p t = true -> passes subs t up -> passes subs t (S i).

(** A call of Next on stream number [i] takes tokens from the source [s] up to the first that passes, and returns it, or takes
    all and returns the end or the error; it skips [skipped]. *)
Inductive Takes (subs : list ((token -> bool) * nat)) (i : nat) : TokenStream -> list token -> result -> TokenStream -> Prop :=
| Takes_token s skipped s1 t s2 :
    Pulls s skipped s1 -> Forall (fun x => ~ passes subs x i) skipped ->
    Nexts s1 (Some t, None) s2 -> passes subs t i -> Takes subs i s skipped (Some t, None) s2
| Takes_end s skipped s1 e s2 :
    Pulls s skipped s1 -> Forall (fun x => ~ passes subs x i) skipped ->
    Nexts s1 (None, e) s2 -> Takes subs i s skipped (None, e) s2.

(** Calls on the streams [is] return [rs], and between them take the tokens [l] from the source. *)
Inductive Serves (subs : list ((token -> bool) * nat)) : TokenStream -> list nat -> list result -> list token -> TokenStream -> Prop :=
| Serves_nil s : Serves subs s [] [] [] s
| Serves_cons s i skipped o e s1 is rs l s2 :
    Takes subs i s skipped (o, e) s1 -> Serves subs s1 is rs l s2 ->
    Serves subs s (i :: is) ((o, e) :: rs) (skipped ++ match o with Some t => [t] | None => [] end ++ l) s2.

(** Some elements of [l], in order. *)
Inductive sub_of {A} : list A -> list A -> Prop :=
| Sub_nil l : sub_of [] l
| Sub_take x l l' : sub_of l l' -> sub_of (x :: l) (x :: l')
| Sub_skip x l l' : sub_of l l' -> sub_of l (x :: l').

(** The tokens among results. *)
Definition delivered (rs : list result) : list token :=
  flat_map (fun r => match fst r with Some t => [t] | None => [] end) rs.
