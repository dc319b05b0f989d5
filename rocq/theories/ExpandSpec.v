(** * ExpandSpec: writing that makes no difference to contractions (C79, C84). *)

From Verif Require Import Base Utf8 Unicode UnicodeData Token Ascii ContractionsTable FilterSpec.
Local Open Scope N_scope.

(** The characters of a text in lower case, with the curly apostrophe (U+2019) for a straight one. *)
Definition spelling (v : string) : list N := map (fun r => uToLower go_unicode (if r =? 8217 then 39 else r)) (runes v).

Definition same_spelling (t1 t2 : token) : Prop := spelling (tvalue t1) = spelling (tvalue t2).

(** ** Contractions and folding (C84) *)

(** The text is expanded. *)
Definition contraction (v : string) : Prop := exists e, expansion go_unicode contraction_mappings v e.

(** The text has only ASCII characters and curly apostrophes. *)
Definition plain (v : string) : Prop := Forall (fun r => r < 128 \/ r = 8217) (runes v).

(** What folding makes of a text. *)
Definition folded (v : string) : string := fst (FoldString v).
