(** * C112: what the documentation shows is what happens *)

From Coq Require Import Permutation.
From Verif Require Import Base Utf8 Unicode UnicodeData Token Stream StreamSpec Tokenizer Words Filters Ascii Trie Synonyms ContractionsTable Dictionaries
  FilterSpec SynSpec ChainSpec LineSpec SentenceSpec DocSpec PropSynLemmas2 PropDocLemmas.
Local Open Scope string_scope.

(** False: the comment at the contractions filter says that "don't" becomes "does not"; it becomes "do not". *)
Theorem C112_refuted : ~ (forall x y, In (x, y) documented_contractions -> makes [Contractions go_unicode words_scan contraction_mappings] x y).
Proof. intros H. destruct C112_dont_lemma as (I & N & _). exact (N (H _ _ I)). Qed.
Print Assumptions C112_refuted.

(** All the other examples of contractions hold. *)
Theorem C112_contractions_partial : forall x y, In (x, y) documented_contractions -> x <> "don't" -> makes [Contractions go_unicode words_scan contraction_mappings] x y.
Proof. exact C112_contractions_lemma. Qed.
Print Assumptions C112_contractions_partial.

(** All those of the tags of Stack Overflow hold, in whichever order Go visits the map of the table. *)
Theorem C112_tags_partial : forall ms D b, Permutation (cf_mappings Tags_config) ms -> dictionary_of (key_tokens go_unicode words_scan) ms D ->
  built_from go_unicode words_scan ms (cf_ignoreCase Tags_config) (cf_ignoreRunes Tags_config) b ->
  forall x y, In (x, y) documented_tags -> makes [SynFilter go_unicode None b] x y.
Proof. exact C112_tags_lemma. Qed.
Print Assumptions C112_tags_partial.

(** And the one of folding to ASCII. *)
Theorem C112_folds_partial : forall x y, In (x, y) documented_folds -> makes [Fold go_unicode] x y.
Proof. exact C112_folds_lemma. Qed.
Print Assumptions C112_folds_partial.

(** What "don't" does become. *)
Example C112_example : makes [Contractions go_unicode words_scan contraction_mappings] "don't" "do not".
Proof. exact (proj2 (proj2 C112_dont_lemma)). Qed.

(** The table has a dictionary and a filter made from it. *)
Example C112_hypothesis : exists D b, dictionary_of (key_tokens go_unicode words_scan) (cf_mappings Tags_config) D /\
  built_from go_unicode words_scan (cf_mappings Tags_config) (cf_ignoreCase Tags_config) (cf_ignoreRunes Tags_config) b.
Proof. exact (concrete_built _ _ _). Qed.
