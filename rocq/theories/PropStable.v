(** * Property theorems C76, C77 *)

From Coq Require Import Permutation.
From Verif Require Import Base Utf8 Unicode UnicodeData Token Stream StreamSpec Tokenizer Words Filters Synonyms SynSpec ChainSpec
  DictSpec SoTable NbaTable Dictionaries CanonSpec Sources WordsProofs PropSynLemmas2 DictProofs PropSynLemmas4 PropSynLemmas5 PropStableLemmas.

(** ** C76 A part of a text *)

(** Tokens that stand next to each other are the tokens of the text that they make up. *)
Theorem C76_parts : forall U s xs ys zs, Yields (TokenizeString U words_scan s) (xs ++ ys ++ zs) ->
  Yields (TokenizeString U words_scan (text ys)) ys.
Proof. exact C76_lemma. Qed.
Print Assumptions C76_parts.

Example C76_example :
  Yields (TokenizeString go_unicode words_scan "I can't (3.14 x)"%string) (app [tok "I"; tok " "] (app [tok "can't"; tok " "; tok "("; tok "3.14"] [tok " "; tok "x"; tok ")"]))%string /\
  word_segments "can't (3.14"%string = ["can't"; " "; "("; "3.14"]%string.
Proof. split; [exact (FilterProofs.TokenizeString_yields go_unicode words_scan words_scan_ok _ eq_refl)|vm_compute; reflexivity]. Qed.

(** ** C77 Canonical terms *)

(** A text that is a canonical term keeps its text: false. Of google-chrome, Tags makes google-google-chrome: the canonical term
    of the synonym chrome, while the three words are not listed. *)
Theorem C77_refuted : exists c,
  (exists k, In (k, c) (cf_mappings Tags_config)) /\
  forall b, built_from go_unicode words_scan (cf_mappings Tags_config) (cf_ignoreCase Tags_config) (cf_ignoreRunes Tags_config) b ->
  Yields (SynFilter go_unicode None b (TokenizeString go_unicode words_scan c)) [tok "google"; tok "-"; lem "google-chrome"]%string /\
  text [tok "google"; tok "-"; lem "google-chrome"]%string <> c.
Proof. exact C77_refutation. Qed.
Print Assumptions C77_refuted.

(** The canonical terms that Tags changes are exactly those of the list Tags_altered. *)
Theorem C77_Tags_partial :
  forall ms b, Permutation (cf_mappings Tags_config) ms -> built_from go_unicode words_scan ms (cf_ignoreCase Tags_config) (cf_ignoreRunes Tags_config) b ->
  forall k c, In (k, c) (cf_mappings Tags_config) ->
  exists o, Yields (SynFilter go_unicode None b (TokenizeString go_unicode words_scan c)) o /\ (text o = c <-> ~ In c Tags_altered).
Proof. exact (C77_shipped_lemma so_mappings [32; 45; 46; 47]%N Tags_altered so_table_ok words_scan_cuts_so Tags_exceptions). Qed.
Print Assumptions C77_Tags_partial.

Theorem C77_CurrentPlayers_partial :
  forall ms b, Permutation (cf_mappings CurrentPlayers_config) ms ->
  built_from go_unicode words_scan ms (cf_ignoreCase CurrentPlayers_config) (cf_ignoreRunes CurrentPlayers_config) b ->
  forall k c, In (k, c) (cf_mappings CurrentPlayers_config) ->
  exists o, Yields (SynFilter go_unicode None b (TokenizeString go_unicode words_scan c)) o /\ text o = c.
Proof. exact CurrentPlayers_canonical. Qed.
Print Assumptions C77_CurrentPlayers_partial.

(** Not vacuous: the filters exist. The examples of README.md:5. *)
Example C77_example :
  (exists D b, dictionary_of (key_tokens go_unicode words_scan) (cf_mappings Tags_config) D /\
    built_from go_unicode words_scan (cf_mappings Tags_config) (cf_ignoreCase Tags_config) (cf_ignoreRunes Tags_config) b) /\
  (exists D b, dictionary_of (key_tokens go_unicode words_scan) (cf_mappings CurrentPlayers_config) D /\
    built_from go_unicode words_scan (cf_mappings CurrentPlayers_config) (cf_ignoreCase CurrentPlayers_config) (cf_ignoreRunes CurrentPlayers_config) b) /\
  (forall b, built_from go_unicode words_scan (cf_mappings Tags_config) (cf_ignoreCase Tags_config) (cf_ignoreRunes Tags_config) b ->
   Forall2 (fun v w => exists o, Yields (SynFilter go_unicode None b (TokenizeString go_unicode words_scan v)) o /\ map tvalue o = w)
    ["react"; "React.js"; "React JS"; "REACTJS"; "ruby on rails"; "ObjC"]%string
    [["reactjs"]; ["reactjs"]; ["reactjs"]; ["reactjs"]; ["ruby-on-rails"]; ["objective-c"]]%string).
Proof. exact (conj (concrete_built _ _ _) (conj (concrete_built _ _ _) Tags_readme)). Qed.
