(** * Property theorems C111: filters made from nothing *)

From Verif Require Import Base Utf8 Unicode UnicodeData Token Stream StreamSpec Tokenizer Words Filters Ascii Synonyms
  FilterSpec SynSpec ChainSpec BareSpec Sources PropSynLemmas2 PropBareLemmas.

(** False for the synonyms filter: when the source fails, all tokens are lost, although there is nothing to replace (see C42). *)
Theorem C111_refuted : ~ (forall ic ig b, built_from go_unicode words_scan [] ic ig b -> changes_nothing (SynFilter go_unicode None b)).
Proof. exact C111_refutation. Qed.
Print Assumptions C111_refuted.

(** It holds for the others: no stop words, no mapping functions, a predicate that is always true, no filters at all. *)
Theorem C111_others_partial : forall (U : unicode) ic,
  changes_nothing (Stopwords U [] ic) /\ changes_nothing (Mapper []) /\ changes_nothing (Where (fun _ => true)) /\ changes_nothing (ApplyFilters []).
Proof. exact C111_simple. Qed.
Print Assumptions C111_others_partial.

(** And for the synonyms filter on streams that end; those that fail do it at once. *)
Theorem C111_synonyms_partial : forall (U : unicode) (scan : oracle), scanner_ok scan -> uIsSpace U 44 = false ->
  forall ic ig b, built_from U scan [] ic ig b ->
  (forall s l, Yields s l -> Yields (SynFilter U None b s) l) /\ (forall s l e, Fails s l e -> Fails (SynFilter U None b s) [] e).
Proof. exact C111_synonyms_lemma. Qed.
Print Assumptions C111_synonyms_partial.

(** There is such a filter; and one that changes something. *)
Example C111_hypothesis : exists b, built_from go_unicode words_scan [] true [] b.
Proof. destruct (concrete_built [] true []) as (D & b & _ & B). now exists b. Qed.

Example C111_example : ~ changes_nothing (Stopwords go_unicode ["a"%string] true).
Proof. exact C111_changes. Qed.
