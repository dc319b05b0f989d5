(** * Property theorems C100: words that occur in no synonym *)

From Coq Require Import Permutation.
From Verif Require Import Base Utf8 Unicode UnicodeData Token Stream StreamSpec Tokenizer Words Trie Synonyms FilterSpec SynSpec ChainSpec ApartSpec
  DictSpec SoTable NbaTable Dictionaries WordsProofs Sources PropSynLemmas2 DictProofs PropSynLemmas4 PropSynLemmas5 PropApartLemmas.

(** C100. A synonyms filter treats the passages between two words separately. False of words that
    merely are no synonym themselves: Tags leaves "on" alone, and joins "Ruby on Rails". *)
Theorem C100_refuted :
  forall b, built_from go_unicode words_scan (cf_mappings Tags_config) (cf_ignoreCase Tags_config) (cf_ignoreRunes Tags_config) b ->
  let on := mkToken "on" false false false in let sp := mkToken " " false true false in
  let before := [mkToken "Ruby" false false false; sp] in let after := [sp; mkToken "Rails" false false false] in
  exists oa ob o,
    Yields (SynFilter go_unicode None b (source [on] None)) [on] /\
    Yields (SynFilter go_unicode None b (source before None)) oa /\
    Yields (SynFilter go_unicode None b (source after None)) ob /\
    Yields (SynFilter go_unicode None b (source (before ++ on :: after) None)) o /\ o <> oa ++ on :: ob.
Proof. exact (fun b B => C100_refutation b (cut_yields so_mappings true [32; 45; 46; 47]%N _ _ _ _ _ _ Tags_on Tags_ruby Tags_rails Tags_ruby_on_rails b B)). Qed.
Print Assumptions C100_refuted.

(** True of punctuation and of words whose letters occur in no synonym: what the filter makes of the
    text is what it makes of each passage, with those words unchanged in between. *)
Theorem C100_passages_partial :
  forall U scan, scanner_ok scan -> uIsSpace U 44 = false ->
  forall ms ic ig D b, dictionary_of (key_tokens U scan) ms D -> built_from U scan ms ic ig b ->
  forall ws, Forall (separates U ic ig D) ws ->
  forall ss ps os s, length ps = S (length ws) ->
  Forall2 Yields ss ps -> Forall2 (fun s => Yields (SynFilter U None b s)) ss os ->
  Yields s (passages ps ws) -> Yields (SynFilter U None b s) (passages os ws).
Proof. exact C100_lemma. Qed.
Print Assumptions C100_passages_partial.

(** White space of ignored characters around a passage stays, and changes nothing. *)
Theorem C100_blanks :
  forall U scan, scanner_ok scan -> uIsSpace U 44 = false ->
  forall ms ic ig D b, dictionary_of (key_tokens U scan) ms D -> built_from U scan ms ic ig b ->
  forall xs ys, Forall (blank U ic ig) xs -> Forall (blank U ic ig) ys ->
  forall s1 l o s2, Yields s1 l -> Yields (SynFilter U None b s1) o ->
  Yields s2 (xs ++ l ++ ys) -> Yields (SynFilter U None b s2) (xs ++ o ++ ys).
Proof. exact C100_blanks_lemma. Qed.
Print Assumptions C100_blanks.

(** So a listed synonym is replaced by its lemma wherever such words enclose it in a text:
    every one of Tags and of CurrentPlayers, but the 45 and 30 of C64. *)
Theorem C100_Tags :
  forall ms D b, Permutation (cf_mappings Tags_config) ms -> dictionary_of (key_tokens go_unicode words_scan) ms D ->
  built_from go_unicode words_scan ms (cf_ignoreCase Tags_config) (cf_ignoreRunes Tags_config) b ->
  forall l c, In (l, c) D -> ~ In (text l) Tags_unrecognised -> exists m, lemma_of go_unicode c m /\
  forall v w xs ys before after s,
  separates go_unicode (cf_ignoreCase Tags_config) (cf_ignoreRunes Tags_config) D v ->
  separates go_unicode (cf_ignoreCase Tags_config) (cf_ignoreRunes Tags_config) D w ->
  Forall (blank go_unicode (cf_ignoreCase Tags_config) (cf_ignoreRunes Tags_config)) xs ->
  Forall (blank go_unicode (cf_ignoreCase Tags_config) (cf_ignoreRunes Tags_config)) ys ->
  Yields s (before ++ v :: xs ++ l ++ ys ++ w :: after) ->
  exists oa ob, Yields (SynFilter go_unicode None b (source before None)) oa /\ Yields (SynFilter go_unicode None b (source after None)) ob /\
    Yields (SynFilter go_unicode None b s) (oa ++ v :: xs ++ m :: ys ++ w :: ob).
Proof. exact (C100_shipped_lemma so_mappings [32; 45; 46; 47]%N Tags_unrecognised so_table_ok words_scan_cuts_so Tags_all_but). Qed.
Print Assumptions C100_Tags.

Theorem C100_CurrentPlayers :
  forall ms D b, Permutation (cf_mappings CurrentPlayers_config) ms -> dictionary_of (key_tokens go_unicode words_scan) ms D ->
  built_from go_unicode words_scan ms (cf_ignoreCase CurrentPlayers_config) (cf_ignoreRunes CurrentPlayers_config) b ->
  forall l c, In (l, c) D -> ~ In (text l) CurrentPlayers_unrecognised -> exists m, lemma_of go_unicode c m /\
  forall v w xs ys before after s,
  separates go_unicode (cf_ignoreCase CurrentPlayers_config) (cf_ignoreRunes CurrentPlayers_config) D v ->
  separates go_unicode (cf_ignoreCase CurrentPlayers_config) (cf_ignoreRunes CurrentPlayers_config) D w ->
  Forall (blank go_unicode (cf_ignoreCase CurrentPlayers_config) (cf_ignoreRunes CurrentPlayers_config)) xs ->
  Forall (blank go_unicode (cf_ignoreCase CurrentPlayers_config) (cf_ignoreRunes CurrentPlayers_config)) ys ->
  Yields s (before ++ v :: xs ++ l ++ ys ++ w :: after) ->
  exists oa ob, Yields (SynFilter go_unicode None b (source before None)) oa /\ Yields (SynFilter go_unicode None b (source after None)) ob /\
    Yields (SynFilter go_unicode None b s) (oa ++ v :: xs ++ m :: ys ++ w :: ob).
Proof. exact (C100_shipped_lemma nba_mappings [32; 46; 39; 45; 8211]%N CurrentPlayers_unrecognised nba_table_ok words_scan_cuts_nba CurrentPlayers_all_but). Qed.
Print Assumptions C100_CurrentPlayers.

(** Not vacuous: for Tags, "Please" and "thanks" are such words, a space is such white space,
    and "ruby on rails" is a synonym that is recognised. *)
Example C100_example :
  (exists D b, dictionary_of (key_tokens go_unicode words_scan) (cf_mappings Tags_config) D /\
    built_from go_unicode words_scan (cf_mappings Tags_config) (cf_ignoreCase Tags_config) (cf_ignoreRunes Tags_config) b) /\
  forall D, dictionary_of (key_tokens go_unicode words_scan) (cf_mappings Tags_config) D ->
  separates go_unicode (cf_ignoreCase Tags_config) (cf_ignoreRunes Tags_config) D (mkToken "Please" false false false) /\
  separates go_unicode (cf_ignoreCase Tags_config) (cf_ignoreRunes Tags_config) D (mkToken "thanks" false false false) /\
  blank go_unicode (cf_ignoreCase Tags_config) (cf_ignoreRunes Tags_config) (mkToken " " false true false) /\
  exists l c, In (l, c) D /\ text l = "ruby on rails"%string /\ ~ In "ruby on rails"%string Tags_unrecognised.
Proof. exact (conj (concrete_built _ _ _) (fun D Dd => conj (apart_separates so_mappings D _ _ Dd (proj1 (andb_prop _ _ Tags_apart)))
  (conj (apart_separates so_mappings D _ _ Dd (proj2 (andb_prop _ _ Tags_apart))) (conj (conj eq_refl (conj eq_refl eq_refl))
  (listed so_mappings _ _ Tags_lists_rails not_missed D Dd))))). Qed.
