(** * Property theorems C43, C44: sharing a synonyms filter between goroutines *)

From Coq Require Import Permutation.
From Verif Require Import Base Utf8 Unicode UnicodeData Token Stream StreamSpec Tokenizer Words Synonyms Once OnceSpec
  FilterSpec SynSpec ChainSpec Sources WordsProofs OnceProofs.

Local Open Scope string_scope.
Local Open Scope list_scope.

(** ** C43 *)

(** For any number of calls of Filter in any interleaving: build runs at most once and never on a discarded
    configuration; nobody writes the fields of the filter while another uses them; every call that has returned
    returned after the one build, without an error; and from then on, whatever happens, its stream is the one
    of a complete build of the configuration. *)
Theorem C43_built_once_and_complete :
  forall (U : unicode) (scan : oracle) (c : config), scanner_ok scan -> uIsSpace U 44 = false ->
  (forall k x, In (k, x) (cf_mappings c) -> serr (scan (mkReader k None)) = None) ->
  forall s, runs U scan (init c) s ->
  builds s <= 1 /\ (forall i, calls s i <> Crashed) /\
  (forall i, writing (calls s i) -> forall j, j <> i -> ~ writing (calls s j) /\ ~ reading (calls s j)) /\
  (forall i e, calls s i = Made e ->
     builds s = 1 /\ e = None /\
     exists ms b, Permutation (cf_mappings c) ms /\ built_from U scan ms (cf_ignoreCase c) (cf_ignoreRunes c) b /\
       forall s', runs U scan s s' -> trie_ s' = b_trie b /\ maxWords_ s' = b_maxWords b /\
         stream_in U s' e = SynFilter U None b).
Proof. exact C43_lemma. Qed.
Print Assumptions C43_built_once_and_complete.

(** The calls never block each other for good, whether or not building succeeds. *)
Theorem C43_no_deadlock :
  forall (U : unicode) (scan : oracle) (c : config), scanner_ok scan -> uIsSpace U 44 = false ->
  forall s, runs U scan (init c) s ->
  forall i, calls s i <> Idle -> (forall e, calls s i <> Made e) ->
  exists j s', calls s j <> Idle /\ step U scan j s s'.
Proof. exact C43_progress_lemma. Qed.
Print Assumptions C43_no_deadlock.

(** Two racing calls that both finish. *)
Example C43_example :
  exists s, runs go_unicode words_scan (init (mkConfig [("js, ecmascript", "javascript")] true [])) s /\
    calls s 0 = Made None /\ calls s 1 = Made None.
Proof. exact C43_example_lemma. Qed.

(** ** C44 *)

(** C44 is false: whenever a key cannot be tokenized, there is a run of two calls, the second of which has no error
    to report, and whose stream panics as soon as its source has a word, at any later time. *)
Theorem C44_refuted :
  forall (U : unicode) (scan : oracle) (c : config), scanner_ok scan -> uIsSpace U 44 = false ->
  forall k x e0, In (k, x) (cf_mappings c) -> serr (scan (mkReader k None)) = Some e0 ->
  exists s e, runs U scan (init c) s /\ calls s 0 = Made (Some e) /\ calls s 1 = Made None /\
    forall s' src lead w src1, runs U scan s s' ->
      Pulls src (lead ++ [w]) src1 -> Forall (fun t => ~ word t) lead -> word w ->
      Panics (fun fuel => Next fuel (stream_in U s' None src)).
Proof. exact C44_refutation. Qed.
Print Assumptions C44_refuted.

(** At most one call knows of the error; its stream reports it on every Next. *)
Theorem C44_reported_once_partial :
  forall (U : unicode) (scan : oracle) (c : config), scanner_ok scan -> uIsSpace U 44 = false ->
  forall k x e0, In (k, x) (cf_mappings c) -> serr (scan (mkReader k None)) = Some e0 ->
  forall s, runs U scan (init c) s ->
  (forall i j e e', calls s i = Made (Some e) -> calls s j = Made (Some e') -> i = j) /\
  (forall i e, calls s i = Made (Some e) -> forall s' src, runs U scan s s' -> Refuses e (stream_in U s' (Some e) src)).
Proof. exact C44_partial_lemma. Qed.
Print Assumptions C44_reported_once_partial.

(** A scanner that gives up on long pieces, as bufio.Scanner does, and a filter with such a key. *)
Example C44_example :
  scanner_ok (limited 5) /\
  serr (limited 5 (mkReader "javascript" None)) = Some "bufio.Scanner: token too long" /\
  exists s e, runs go_unicode (limited 5) (init (mkConfig [("javascript", "js")] true [])) s /\
    calls s 0 = Made (Some e) /\ calls s 1 = Made None.
Proof. exact C44_example_lemma. Qed.
