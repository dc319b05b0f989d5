(** * Property theorems C19, continued: functions that return nil, exactly *)

From Verif Require Import Base Utf8 Unicode Token Stream StreamSpec Filters FilterSpec NilSpec Sources PropFiltersLemmas PropNilLemmas.

(** If the last function is the first to return nil, for the token [t], ToSlice stops there, without an error: it returns what the
    tokens before [t] became.  The tokens after [t] are still to be had by calling on. *)
Theorem C19_stops : forall fs f s a out s1 t u s2, Forall2 (goes (fs ++ [f])) a out -> Pulls s a s1 -> Nexts s1 (Some t, None) s2 ->
  goes fs t u -> f u = None ->
  exists w, Returns (fun n => ToSlice n (Mapper (fs ++ [f]) s)) ((out, None), w) /\ ts_next w = ts_next (Mapper (fs ++ [f]) s2).
Proof. exact C19_stops_lemma. Qed.
Print Assumptions C19_stops.

(** If there is a function after it, ToSlice panics. *)
Theorem C19_panics : forall fs f g gs s a out s1 t u s2, Forall2 (goes (fs ++ f :: g :: gs)) a out -> Pulls s a s1 -> Nexts s1 (Some t, None) s2 ->
  goes fs t u -> f u = None -> Panics (fun n => ToSlice n (Mapper (fs ++ f :: g :: gs) s)).
Proof. exact C19_panics_lemma. Qed.
Print Assumptions C19_panics.

(** Not vacuous: of "a", "b", "c" the function [drop_b] drops "b". *)
Example C19_nil_example :
  goes [drop_b] (tok "a") (tok "a") /\ drop_b (tok "b") = None /\
  match ToSlice 9 (Mapper [drop_b] (source [tok "a"; tok "b"; tok "c"] None)) with
  | Ret ((l, e), w) => (map tvalue l, e, match ToSlice 9 w with Ret ((l', _), _) => map tvalue l' | _ => [] end)
  | _ => ([], None, []) end = (["a"], None, ["c"])%string /\
  ToSlice 9 (Mapper [drop_b; drop_b] (source [tok "a"; tok "b"; tok "c"] None)) = Panic.
Proof. split; [econstructor; [reflexivity|constructor]|]. vm_compute. auto. Qed.
