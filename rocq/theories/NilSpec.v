(** * NilSpec: mapping functions applied one after the other (C19). *)

From Verif Require Import Base Utf8 Unicode Token Stream Filters.

(** The functions, each given the result of the one before, make [t'] of [t]; none returns nil. *)
Inductive goes : list mapfunc -> token -> token -> Prop :=
| G_nil t : goes [] t t
| G_cons f fs t u t' : f t = Some u -> goes fs u t' -> goes (f :: fs) t t'.
