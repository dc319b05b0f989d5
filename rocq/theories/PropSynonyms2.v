(** * Property theorems C64, C65: listed synonyms, filtering twice *)

From Coq Require Import Permutation.
From Verif Require Import Base Utf8 Unicode UnicodeData Token Stream StreamSpec Tokenizer Words Trie Synonyms FilterSpec SynSpec ChainSpec
  DictSpec SoTable NbaTable Dictionaries WordsProofs Sources PropSynLemmas2 DictProofs PropSynLemmas4 PropSynLemmas5.

(** C64. A text that is a listed synonym is recognised as such: false, "c#" is listed by Tags and is not. *)
Theorem C64_refuted :
  forall D b, dictionary_of (key_tokens go_unicode words_scan) (cf_mappings Tags_config) D ->
  built_from go_unicode words_scan (cf_mappings Tags_config) (cf_ignoreCase Tags_config) (cf_ignoreRunes Tags_config) b ->
  exists l c, In (l, c) D /\ text l = "c#"%string /\
    forall s, Yields s l -> ~ exists m, lemma_of go_unicode c m /\ Yields (SynFilter go_unicode None b s) [m].
Proof. exact (C64_refutation so_mappings [32; 45; 46; 47]%N Tags_unrecognised "c#" so_table_ok words_scan_cuts_so Tags_all_but Tags_csharp_missed Tags_csharp_listed). Qed.
Print Assumptions C64_refuted.

(** Exactly those are recognised that have no punctuation and end with a letter that is not ignored. *)
Theorem C64_listed_partial :
  forall U scan, scanner_ok scan -> uIsSpace U 44 = false ->
  forall ms ic ig D b, dictionary_of (key_tokens U scan) ms D -> built_from U scan ms ic ig b -> unambiguous U ic ig D ->
  forall l c s, In (l, c) D -> (forall t, In t l -> tspace t = true -> letters U ic ig (tvalue t) = []) -> Yields s l ->
  (exists m, lemma_of U c m /\ Yields (SynFilter U None b s) [m]) <->
  (forall t, In t l -> tpunct t = false) /\ exists l0 x, l = l0 ++ [x] /\ letters U ic ig (tvalue x) <> [].
Proof. exact C64_lemma. Qed.
Print Assumptions C64_listed_partial.

(** Of the shipped dictionaries: all but the 45 and 30 named in DictSpec. *)
Theorem C64_Tags_partial :
  forall ms D b, Permutation (cf_mappings Tags_config) ms -> dictionary_of (key_tokens go_unicode words_scan) ms D ->
  built_from go_unicode words_scan ms (cf_ignoreCase Tags_config) (cf_ignoreRunes Tags_config) b ->
  forall l c s, In (l, c) D -> Yields s l ->
  (exists m, lemma_of go_unicode c m /\ Yields (SynFilter go_unicode None b s) [m]) <-> ~ In (text l) Tags_unrecognised.
Proof. exact (C64_shipped_lemma so_mappings [32; 45; 46; 47]%N Tags_unrecognised so_table_ok words_scan_cuts_so Tags_all_but). Qed.
Print Assumptions C64_Tags_partial.

Theorem C64_CurrentPlayers_partial :
  forall ms D b, Permutation (cf_mappings CurrentPlayers_config) ms -> dictionary_of (key_tokens go_unicode words_scan) ms D ->
  built_from go_unicode words_scan ms (cf_ignoreCase CurrentPlayers_config) (cf_ignoreRunes CurrentPlayers_config) b ->
  forall l c s, In (l, c) D -> Yields s l ->
  (exists m, lemma_of go_unicode c m /\ Yields (SynFilter go_unicode None b s) [m]) <-> ~ In (text l) CurrentPlayers_unrecognised.
Proof. exact (C64_shipped_lemma nba_mappings [32; 46; 39; 45; 8211]%N CurrentPlayers_unrecognised nba_table_ok words_scan_cuts_nba CurrentPlayers_all_but). Qed.
Print Assumptions C64_CurrentPlayers_partial.

(** Not vacuous: the filters exist. Tags makes of "C#" the tag for C and a number sign. *)
Example C64_example :
  (exists D b, dictionary_of (key_tokens go_unicode words_scan) (cf_mappings Tags_config) D /\
    built_from go_unicode words_scan (cf_mappings Tags_config) (cf_ignoreCase Tags_config) (cf_ignoreRunes Tags_config) b) /\
  (exists D b, dictionary_of (key_tokens go_unicode words_scan) (cf_mappings CurrentPlayers_config) D /\
    built_from go_unicode words_scan (cf_mappings CurrentPlayers_config) (cf_ignoreCase CurrentPlayers_config) (cf_ignoreRunes CurrentPlayers_config) b) /\
  (forall b, built_from go_unicode words_scan (cf_mappings Tags_config) (cf_ignoreCase Tags_config) (cf_ignoreRunes Tags_config) b ->
    Yields (SynFilter go_unicode None b (TokenizeString go_unicode words_scan "C#")) [lem "c"; tok "#"]).
Proof. exact (conj (concrete_built _ _ _) (conj (concrete_built _ _ _) (run_once so_mappings _ _ _ _ Tags_csharp))). Qed.

(** C65. Filtering the output again changes nothing: false for Tags. *)
Theorem C65_refuted :
  forall b, built_from go_unicode words_scan (cf_mappings Tags_config) (cf_ignoreCase Tags_config) (cf_ignoreRunes Tags_config) b ->
  exists l1 l2, map tvalue l1 = ["bash"; " "; "profile"]%string /\ map tvalue l2 = ["bash"]%string /\
    Yields (SynFilter go_unicode None b (TokenizeString go_unicode words_scan "bash script profile")) l1 /\
    Yields (SynFilter go_unicode None b (SynFilter go_unicode None b (TokenizeString go_unicode words_scan "bash script profile"))) l2.
Proof. exact (run_twice so_mappings true [32; 45; 46; 47]%N _ _ _ Tags_twice). Qed.
Print Assumptions C65_refuted.

(** It holds if no canonical occurs within a synonym, other than as the whole of one of its own,
    and every word of the text has a letter that is not ignored. *)
Theorem C65_twice_partial :
  forall U scan, scanner_ok scan -> uIsSpace U 44 = false ->
  forall ms ic ig D b, dictionary_of (key_tokens U scan) ms D -> built_from U scan ms ic ig b ->
  (forall l c, In (l, c) D -> c <> EmptyString) ->
  (forall l c l' c' u v, In (l, c) D -> In (l', c') D -> spelled U ic ig l = u ++ letters U ic ig c' ++ v ->
     u = [] /\ v = [] /\ means U ic ig D (letters U ic ig c') c') ->
  forall s l, Yields s l -> (forall t, In t l -> word t -> letters U ic ig (tvalue t) <> []) ->
  exists o, Yields (SynFilter U None b s) o /\ Yields (SynFilter U None b (SynFilter U None b s)) o.
Proof. exact C65_lemma. Qed.
Print Assumptions C65_twice_partial.

(** The players are such a dictionary. *)
Theorem C65_CurrentPlayers_partial :
  forall scan, scanner_ok scan -> (forall k x, In (k, x) (cf_mappings CurrentPlayers_config) -> cuts_at_commas scan k) ->
  forall ms b, Permutation (cf_mappings CurrentPlayers_config) ms ->
  built_from go_unicode scan ms (cf_ignoreCase CurrentPlayers_config) (cf_ignoreRunes CurrentPlayers_config) b ->
  forall s l, Yields s l ->
  (forall t, In t l -> word t -> letters go_unicode (cf_ignoreCase CurrentPlayers_config) (cf_ignoreRunes CurrentPlayers_config) (tvalue t) <> []) ->
  exists o, Yields (SynFilter go_unicode None b s) o /\ Yields (SynFilter go_unicode None b (SynFilter go_unicode None b s)) o.
Proof. exact (C65_shipped_lemma nba_mappings [32; 46; 39; 45; 8211]%N nba_table_ok CurrentPlayers_stable). Qed.
Print Assumptions C65_CurrentPlayers_partial.

(** Not vacuous: such a filter exists, and the words of a text have letters. *)
Example C65_example :
  (exists D b, dictionary_of (key_tokens go_unicode words_scan) (cf_mappings CurrentPlayers_config) D /\
    built_from go_unicode words_scan (cf_mappings CurrentPlayers_config) (cf_ignoreCase CurrentPlayers_config) (cf_ignoreRunes CurrentPlayers_config) b) /\
  forall t, In t [tok "LeBron"; tok " "; tok "James"; tok "."] -> word t ->
    letters go_unicode (cf_ignoreCase CurrentPlayers_config) (cf_ignoreRunes CurrentPlayers_config) (tvalue t) <> [].
Proof.
  split; [apply concrete_built|]. intros t I W.
  repeat (destruct I as [<-|I]; [first [vm_compute; discriminate|destruct W as [W1 W2]; vm_compute in W1, W2; discriminate]|]). destruct I.
Qed.
