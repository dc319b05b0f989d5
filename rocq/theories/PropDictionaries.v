(** * Property theorem C37: the shipped dictionaries *)

From Coq Require Import Permutation.
From Verif Require Import Base Utf8 Unicode UnicodeData Token Stream StreamSpec Tokenizer Words Trie Synonyms FilterSpec SynSpec
  ChainSpec DictSpec SoTable NbaTable Dictionaries DictProofs.

(** For every scanner that makes each comma of a key a piece of its own, and every order of the mappings:
    the dictionary is unambiguous, and the order makes no difference to any caller. *)
Theorem C37_Tags :
  forall scan, scanner_ok scan ->
  (forall k x, In (k, x) (cf_mappings Tags_config) -> cuts_at_commas scan k) ->
  (forall ms D, Permutation (cf_mappings Tags_config) ms -> dictionary_of (key_tokens go_unicode scan) ms D ->
     unambiguous go_unicode (cf_ignoreCase Tags_config) (cf_ignoreRunes Tags_config) D) /\
  (forall ms1 ms2 b1 b2, Permutation (cf_mappings Tags_config) ms1 -> Permutation (cf_mappings Tags_config) ms2 ->
     built_from go_unicode scan ms1 (cf_ignoreCase Tags_config) (cf_ignoreRunes Tags_config) b1 ->
     built_from go_unicode scan ms2 (cf_ignoreCase Tags_config) (cf_ignoreRunes Tags_config) b2 ->
     forall s, Same (SynFilter go_unicode None b1 s) (SynFilter go_unicode None b2 s)).
Proof. exact (shipped_lemma Tags_config so_table_ok). Qed.
Print Assumptions C37_Tags.

Theorem C37_CurrentPlayers :
  forall scan, scanner_ok scan ->
  (forall k x, In (k, x) (cf_mappings CurrentPlayers_config) -> cuts_at_commas scan k) ->
  (forall ms D, Permutation (cf_mappings CurrentPlayers_config) ms -> dictionary_of (key_tokens go_unicode scan) ms D ->
     unambiguous go_unicode (cf_ignoreCase CurrentPlayers_config) (cf_ignoreRunes CurrentPlayers_config) D) /\
  (forall ms1 ms2 b1 b2, Permutation (cf_mappings CurrentPlayers_config) ms1 -> Permutation (cf_mappings CurrentPlayers_config) ms2 ->
     built_from go_unicode scan ms1 (cf_ignoreCase CurrentPlayers_config) (cf_ignoreRunes CurrentPlayers_config) b1 ->
     built_from go_unicode scan ms2 (cf_ignoreCase CurrentPlayers_config) (cf_ignoreRunes CurrentPlayers_config) b2 ->
     forall s, Same (SynFilter go_unicode None b1 s) (SynFilter go_unicode None b2 s)).
Proof. exact (shipped_lemma CurrentPlayers_config nba_table_ok). Qed.
Print Assumptions C37_CurrentPlayers.

(** The word segmentation of the model is such a scanner. *)
Example C37_example :
  (forall k x, In (k, x) (cf_mappings Tags_config) -> cuts_at_commas words_scan k) /\
  (forall k x, In (k, x) (cf_mappings CurrentPlayers_config) -> cuts_at_commas words_scan k).
Proof. exact (conj words_scan_cuts_so words_scan_cuts_nba). Qed.
