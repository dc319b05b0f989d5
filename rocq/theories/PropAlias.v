(** * Property theorems C82: changing the arguments of a filter after it was made *)

From Verif Require Import Base Utf8 Unicode UnicodeData Token Stream Tokenizer Filters Synonyms Words Sources
  Aliasing AliasSpec PropAliasLemmas.
Local Open Scope string_scope.
Local Open Scope list_scope.

(** C82 is false for two kinds of filters. *)
Theorem C82_refuted :
  ~ (forall U scan ic, independent (synonyms_maker U scan ic)) /\ ~ independent mapper_maker.
Proof. exact C82_refutation. Qed.
Print Assumptions C82_refuted.

(** A stop-word filter never notices. *)
Theorem C82_stopwords_partial : forall (U : unicode) (ic : bool), independent (stopwords_maker U ic).
Proof. exact C82_stopwords_lemma. Qed.
Print Assumptions C82_stopwords_partial.

(** A synonyms filter does not notice changes after it was first applied; earlier ones must spare its two arguments. *)
Theorem C82_synonyms_partial :
  forall (U : unicode) (scan : oracle) (ic : bool) (fuel : nat) (m : mem) (before : list op) (s : TokenStream) (after : list op),
  (forall m', changes before m' -> m_mappings m' = m_mappings m /\ m_runes m' = m_runes m) ->
  (forall s', ~ In (Apply s') before) ->
  session (synonyms_maker U scan ic) fuel m (before ++ Apply s :: after) =
  session (synonyms_maker U scan ic) fuel m (unchanged (before ++ Apply s :: after)).
Proof. exact C82_synonyms_lemma. Qed.
Print Assumptions C82_synonyms_partial.

(** What counts is what the arguments are at its first use: the filter is the one made from those. *)
Theorem C82_synonyms_first_use_partial :
  forall (U : unicode) (scan : oracle) (ic : bool) (fuel : nat) (m m' : mem) (ops : list op),
  session (synonyms_maker U scan ic) fuel m (Change m' :: ops) = session (synonyms_maker U scan ic) fuel m' ops.
Proof. exact C82_synonyms_first_use_lemma. Qed.
Print Assumptions C82_synonyms_first_use_partial.

(** A mapper does not notice changes that spare its functions. *)
Theorem C82_mapper_partial :
  forall (fuel : nat) (m : mem) (ops : list op), (forall m', changes ops m' -> m_funcs m' = m_funcs m) ->
  session mapper_maker fuel m ops = session mapper_maker fuel m (unchanged ops).
Proof. exact C82_mapper_lemma. Qed.
Print Assumptions C82_mapper_partial.

(** Undisturbed, these filters are the ones of the other theorems. *)
Theorem C82_undisturbed :
  forall (U : unicode) (scan : oracle) (ic : bool) (fuel : nat) (m : mem) (s : TokenStream) (n : nat),
  session (stopwords_maker U ic) fuel m (Apply s :: repeat (Call 0) n) = calls fuel n (Stopwords U (m_words m) ic s) /\
  session mapper_maker fuel m (Apply s :: repeat (Call 0) n) = calls fuel n (Mapper (m_funcs m) s) /\
  session (synonyms_maker U scan ic) fuel m (Apply s :: repeat (Call 0) n) =
    (do (err, b) <- build U scan fuel (mkConfig (m_mappings m) ic (m_runes m)); calls fuel n (SynFilter U err b s)).
Proof. exact C82_undisturbed_lemma. Qed.
Print Assumptions C82_undisturbed.

(** The program [m := map[string]string{"js": "javascript"}; f := synonyms.NewFilter(m, true, nil); delete(m, "js")], and the
    one that deletes after applying the filter. *)
Example C82_witness :
  session (synonyms_maker go_unicode words_scan true) 9 (mem_of [("js", "javascript")] [])
    [Change (mem_of [] []); Apply (source [tok "js"] None); Call 0] = Ret [(Some (tok "js"), None)] /\
  session (synonyms_maker go_unicode words_scan true) 9 (mem_of [("js", "javascript")] [])
    [Apply (source [tok "js"] None); Change (mem_of [] []); Call 0] =
    Ret [(Some (mkToken "javascript" false false true), None)] /\
  session mapper_maker 9 (mem_of [] [fun t => Some (tok "a")])
    [Apply (source [tok "x"; tok "y"] None); Call 0; Change (mem_of [] [fun t => Some (tok "b")]); Call 0] =
    Ret [(Some (tok "a"), None); (Some (tok "b"), None)] /\
  session (stopwords_maker go_unicode true) 9 (mkMem ["the"] [] [] [])
    [Change (mkMem ["cat"] [] [] []); Apply (source [tok "The"; tok "cat"] None); Call 0] = Ret [(Some (tok "cat"), None)].
Proof. vm_compute. repeat split; reflexivity. Qed.
