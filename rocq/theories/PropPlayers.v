(** * Property theorems C88: players' names; C40: exactly what is replaced as a whole *)

From Coq Require Import Permutation.
From Verif Require Import Base Utf8 Unicode UnicodeData Token Stream StreamSpec Tokenizer Words Ascii Trie Synonyms FilterSpec SynSpec
  ChainSpec DictSpec CanonSpec Dictionaries NbaTable PlayersSpec Sources PropExactLemmas PropPlayersLemmas.

(** Exactly which texts are replaced as a whole by a dictionary without empty words: those that start with a word, have no
    punctuation and no more words than the longest synonym, do not end with a token of ignored characters, and spell a synonym. *)
Theorem C40_exactly_partial :
  forall (U : unicode) (scan : oracle), scanner_ok scan -> uIsSpace U 44 = false ->
  forall ms ic ig D b, dictionary_of (key_tokens U scan) ms D -> built_from U scan ms ic ig b ->
  (forall l c, In (l, c) D -> spelled U ic ig l <> [] /\ c <> EmptyString) ->
  forall n, widest D n -> forall l c s, (forall t, In t l -> tlemma t = false) -> Yields s l ->
  ((exists m, lemma_of U c m /\ Yields (SynFilter U None b s) [m]) <->
   exists l0 x, l = l0 ++ [x] /\ word (hd x l) /\ window n l = l /\ letters U ic ig (tvalue x) <> [] /\
     means U ic ig D (spelled U ic ig l) c).
Proof. exact C40_exact. Qed.
Print Assumptions C40_exactly_partial.

(** C88 is false: a name with only some of its diacritics is not recognised. *)
Theorem C88_refuted : exists c v, player c /\ alike v c /\
  forall ms b, Permutation (cf_mappings CurrentPlayers_config) ms ->
  built_from go_unicode words_scan ms (cf_ignoreCase CurrentPlayers_config) (cf_ignoreRunes CurrentPlayers_config) b ->
  ~ recognised b (TokenizeString go_unicode words_scan v) c.
Proof. exact C88_refutation. Qed.
Print Assumptions C88_refuted.

(** The dictionary has every player with all diacritics and with none, and nothing else. *)
Theorem C88_names_partial :
  forall ms D, Permutation (cf_mappings CurrentPlayers_config) ms -> dictionary_of (key_tokens go_unicode words_scan) ms D ->
  forall p c, means go_unicode (cf_ignoreCase CurrentPlayers_config) (cf_ignoreRunes CurrentPlayers_config) D p c <->
  player c /\ (p = name_letters c \/ p = name_letters (without_diacritics c)).
Proof. exact C88_names. Qed.
Print Assumptions C88_names_partial.

(** So a text is recognised exactly if it is written with all or none of the diacritics, with ignored characters only inside, and
    without punctuation (where the scanner makes a token of its own of it). *)
Theorem C88_exactly_partial :
  forall ms b, Permutation (cf_mappings CurrentPlayers_config) ms ->
  built_from go_unicode words_scan ms (cf_ignoreCase CurrentPlayers_config) (cf_ignoreRunes CurrentPlayers_config) b ->
  forall s l c, (forall t, In t l -> tlemma t = false) -> Yields s l ->
  (recognised b s c <->
   player c /\ exists l0 x, l = l0 ++ [x] /\ word (hd x l) /\ window 3 l = l /\ name_letters (tvalue x) <> [] /\
     (flat_map (fun t => name_letters (tvalue t)) l = name_letters c \/
      flat_map (fun t => name_letters (tvalue t)) l = name_letters (without_diacritics c))).
Proof. exact C88_exact. Qed.
Print Assumptions C88_exactly_partial.

(** The filter exists; a name with some diacritics, with a curly apostrophe, without diacritics, with a dash for the space. *)
Example C88_example :
  (exists D b, dictionary_of (key_tokens go_unicode words_scan) (cf_mappings CurrentPlayers_config) D /\
    built_from go_unicode words_scan (cf_mappings CurrentPlayers_config) (cf_ignoreCase CurrentPlayers_config) (cf_ignoreRunes CurrentPlayers_config) b) /\
  forall b, built_from go_unicode words_scan (cf_mappings CurrentPlayers_config) (cf_ignoreCase CurrentPlayers_config) (cf_ignoreRunes CurrentPlayers_config) b ->
  Forall2 (fun v o => Yields (SynFilter go_unicode None b (TokenizeString go_unicode words_scan v)) o)
    ["Luka Dončic"; "De’Aaron Fox"; "luka doncic"; "LUKA-DONČIĆ"]%string
    [[tok "Luka"; tok " "; tok "Dončic"]; [tok "De’Aaron"; tok " "; tok "Fox"]; [lem "Luka Dončić"]; [tok "LUKA"; tok "-"; tok "DONČIĆ"]]%string.
Proof. exact C88_example_lemma. Qed.

Example C88_alike : alike "Luka Dončic" "Luka Dončić" /\ alike "De’Aaron Fox" "De'Aaron Fox" /\ alike "LUKA-DONČIĆ" "Luka Dončić".
Proof. exact nba_alike. Qed.
