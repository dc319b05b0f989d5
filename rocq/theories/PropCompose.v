(** * Property theorems C93 *)

From Verif Require Import Base Utf8 Unicode UnicodeData Token Stream StreamSpec Filters Ascii DecompTable ComposeSpec Sources PropComposeLemmas.
Local Open Scope N_scope.

(** C93 is false: e with an acute accent is folded to e, but e followed by a combining acute accent stays. *)
Theorem C93_refuted :
  ~ (forall x y, Forall (fun r => valid_rune r = true) x -> decomposed x y ->
     fst (FoldString (encode x)) = fst (FoldString (encode y))).
Proof. exact C93_refutation. Qed.
Print Assumptions C93_refuted.

(** It never holds: a text with some letter decomposed is folded to something else. *)
Theorem C93_exactly :
  forall x y, Forall (fun r => valid_rune r = true) x -> decomposed x y ->
  (fst (FoldString (encode x)) = fst (FoldString (encode y)) <-> x = y).
Proof. exact C93_exact. Qed.
Print Assumptions C93_exactly.

(** Folding removes no combining mark. *)
Theorem C93_marks_stay : forall s, marks_of (fst (FoldString s)) = marks_of s.
Proof. exact marks_stay. Qed.
Print Assumptions C93_marks_stay.

(** After a normalization that makes composed and decomposed letters the same, folding does too. *)
Theorem C93_normalized_first_partial :
  forall (U : unicode) (isNormal : string -> bool) (normalize : string -> string),
  (forall v, isNormal v = false -> normalize v <> EmptyString) -> unifies isNormal normalize ->
  forall s1 s2 l1 l2, Yields s1 l1 -> Yields s2 l2 ->
  Forall2 (fun t u => exists x y, Forall (fun r => valid_rune r = true) x /\ decomposed x y /\ tvalue t = encode x /\ tvalue u = encode y) l1 l2 ->
  exists o1 o2, Yields (ApplyFilters [Norm U isNormal normalize; Fold U] s1) o1 /\
    Yields (ApplyFilters [Norm U isNormal normalize; Fold U] s2) o2 /\ map tvalue o1 = map tvalue o2 /\
    map tvalue o1 = map (fun t => fst (FoldString (normal_form isNormal normalize (tvalue t)))) l1.
Proof. exact C93_norm. Qed.
Print Assumptions C93_normalized_first_partial.

(** Not so with a composing normalization after the folding. *)
Theorem C93_folded_first :
  forall (U : unicode) (isNormal : string -> bool) (normalize : string -> string),
  isNormal "e"%string = true -> isNormal (encode [101; 769]) = false -> normalize (encode [101; 769]) = encode [233] ->
  forall s1 s2, Yields s1 [mkToken (encode [233]) false false false] -> Yields s2 [mkToken (encode [101; 769]) false false false] ->
  exists o1 o2, Yields (ApplyFilters [Fold U; Norm U isNormal normalize] s1) o1 /\
    Yields (ApplyFilters [Fold U; Norm U isNormal normalize] s2) o2 /\
    map tvalue o1 = ["e"%string] /\ map tvalue o2 = [encode [233]].
Proof. exact C93_order. Qed.
Print Assumptions C93_folded_first.

Example C93_example :
  decomposed [233] [101; 769] /\ FoldString (encode [233]) = ("e"%string, true) /\ FoldString (encode [101; 769]) = (encode [101; 769], false).
Proof. split; [exact decomposed_e|]. split; vm_compute; reflexivity. Qed.

(** A normalizer (to decomposed letters) that fulfils the conditions. *)
Example C93_example_normalizer :
  (forall v, toy_isNormal v = false -> toy_normalize v <> EmptyString) /\ unifies toy_isNormal toy_normalize /\
  toy_normalize (encode [233]) = encode [101; 769].
Proof. split; [exact toy_nonempty|]. split; [exact toy_unifies|]. vm_compute. reflexivity. Qed.

(** One that composes this letter. *)
Example C93_example_composing :
  let isn v := negb (seqb v (encode [101; 769])) in
  let nrm v := if seqb v (encode [101; 769]) then encode [233] else v in
  isn "e"%string = true /\ isn (encode [101; 769]) = false /\ nrm (encode [101; 769]) = encode [233] /\
  match ToSlice 9 (Fold go_unicode (Norm go_unicode isn nrm (source [tok (encode [101; 769])] None))) with
  | Ret ((l, _), _) => map tvalue l = ["e"%string] | _ => False end.
Proof. vm_compute. repeat split; reflexivity. Qed.
