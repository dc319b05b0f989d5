(** * Property theorem C102: concurrent requests to the web service *)

From Coq Require Import Permutation.
From Verif Require Import Base Utf8 Unicode UnicodeData Token Stream StreamSpec Tokenizer Html Words Trie Synonyms Once OnceSpec Serve ServeSpec
  FilterSpec SynSpec ChainSpec DictSpec Dictionaries Web WebSpec WordsProofs DictProofs PropServeLemmas.
Local Open Scope string_scope.

(** Two requests, served by the same process or by different ones, at any point of any interleaving with other requests
    (the first ones and those during which the dictionary is built among them): if they are equal, so are the answers. *)
Theorem C102_same_answer :
  forall (scan : oracle), scanner_ok scan ->
  (forall k x, In (k, x) (cf_mappings Tags_config) -> cuts_at_commas scan k /\ serr (scan (mkReader k None)) = None) ->
  forall i1 e1 h1 i2 e2 h2, being_served go_unicode scan Tags_config i1 e1 h1 -> being_served go_unicode scan Tags_config i2 e2 h2 ->
  forall (parse : reader -> hparser) (conn : writer) (fuel : nat) (q : request) (r : response conn),
  serve go_unicode scan parse (LiveFilter go_unicode e1 h1) conn fuel q r = serve go_unicode scan parse (LiveFilter go_unicode e2 h2) conn fuel q r.
Proof. exact C102_serve_lemma. Qed.
Print Assumptions C102_same_answer.

(** It is the answer of C56 - C58 and C75, for a filter all its own. *)
Theorem C102_answer_as_if_alone :
  forall (scan : oracle), scanner_ok scan ->
  (forall k x, In (k, x) (cf_mappings Tags_config) -> cuts_at_commas scan k /\ serr (scan (mkReader k None)) = None) ->
  forall i e h, being_served go_unicode scan Tags_config i e h ->
  exists ms b, Permutation (cf_mappings Tags_config) ms /\
    built_from go_unicode scan ms (cf_ignoreCase Tags_config) (cf_ignoreRunes Tags_config) b /\
    forall (parse : reader -> hparser) (conn : writer) (fuel : nat) (q : request) (r : response conn),
    serve go_unicode scan parse (LiveFilter go_unicode e h) conn fuel q r = serve go_unicode scan parse (SynFilter go_unicode None b) conn fuel q r.
Proof. exact C102_serve_alone. Qed.
Print Assumptions C102_answer_as_if_alone.

(** The same for every stream through a synonyms filter that is shared by goroutines: the streams cannot be told apart. *)
Theorem C102_shared_filter :
  forall (U : unicode) (scan : oracle) (c : config), scanner_ok scan -> uIsSpace U 44 = false ->
  (forall k x, In (k, x) (cf_mappings c) -> serr (scan (mkReader k None)) = None) ->
  (forall ms D, Permutation (cf_mappings c) ms -> dictionary_of (key_tokens U scan) ms D -> unambiguous U (cf_ignoreCase c) (cf_ignoreRunes c) D) ->
  forall i1 e1 h1 i2 e2 h2, being_served U scan c i1 e1 h1 -> being_served U scan c i2 e2 h2 ->
  forall s, Same (LiveFilter U e1 h1 s) (LiveFilter U e2 h2 s).
Proof. exact C102_filter_lemma. Qed.
Print Assumptions C102_shared_filter.

(** The hypothesis on the keys holds for stackoverflow.Tags.  If building the dictionary of another filter fails, the call that has seen this has a stream
    with the error and nothing else, whatever the other goroutines do (for their streams: C44). *)
Theorem C102_build_error :
  forall (U : unicode) (scan : oracle) (c : config) (i : nat) (e : error) (h : nat -> state), being_served U scan c i (Some e) h ->
  forall s, Refuses e (LiveFilter U (Some e) h s).
Proof. exact (fun U _ _ _ e h _ => C102_error U e h). Qed.
Print Assumptions C102_build_error.

(** The word segmentation of the model fulfils the hypotheses. *)
Example C102_example_scanner :
  scanner_ok words_scan /\
  forall k x, In (k, x) (cf_mappings Tags_config) -> cuts_at_commas words_scan k /\ serr (words_scan (mkReader k None)) = None.
Proof. exact (conj words_scan_ok (fun k x H => conj (words_scan_cuts_so k x H) eq_refl)). Qed.

(** Two requests whose first calls race. *)
Example C102_example_served :
  exists h, being_served go_unicode words_scan Tags_config 0 None h /\ being_served go_unicode words_scan Tags_config 1 None h.
Proof. exact C102_served. Qed.

(** A request that sees building fail. *)
Example C102_example_error : exists e h, being_served go_unicode (OnceProofs.limited 5) (mkConfig [("javascript", "js")] true []) 0 (Some e) h.
Proof. exact C102_error_served. Qed.
