(** * Property theorems C34 - C36, C38 - C42 *)

From Coq Require Import Permutation.
From Verif Require Import Base Utf8 Unicode UnicodeData Token Stream StreamSpec Tokenizer Words Filters Trie Synonyms
  FilterSpec SynSpec ChainSpec Sources WordsProofs PropSynLemmas PropSynLemmas2 PropSynLemmas3.

Local Open Scope string_scope.
Local Open Scope list_scope.

(** ** C34 Trie search *)

(** [finds] (SynSpec.v) is the specification of the answer. *)
Theorem C34_longest_match :
  forall (U : unicode) (ignoreCase : bool) (ignored : list N) (D : dictionary) (l : list token),
  finds U ignoreCase ignored D l
    (SearchCanonical U (fold_left (fun t e => trie_Add U t (fst e) (snd e)) D (trie_New ignoreCase ignored)) l).
Proof. exact C34_lemma. Qed.
Print Assumptions C34_longest_match.

(** The specification determines the answer. *)
Theorem C34_spec_is_functional :
  forall U ignoreCase ignored D l r1 r2,
  finds U ignoreCase ignored D l r1 -> finds U ignoreCase ignored D l r2 -> r1 = r2.
Proof. exact C34_functional. Qed.
Print Assumptions C34_spec_is_functional.

Example C34_example :
  let t := fold_left (fun t e => trie_Add go_unicode t (fst e) (snd e))
    [([tok "ruby"], "ruby"); ([tok "ruby"; tok " "; tok "on"; tok " "; tok "rails"], "ruby-on-rails"); ([tok "node"; tok "js"], "node.js")]
    (trie_New true [32; 45; 46; 47]%N) in
  SearchCanonical go_unicode t [tok "Ruby"; tok " "; tok "on"; tok "-"; tok "Rails"; tok " "; tok "rocks"] = (true, "ruby-on-rails", 5) /\
  SearchCanonical go_unicode t [tok "Ruby"; tok " "; tok "on"; tok "-"; tok "the"] = (true, "ruby", 1) /\
  SearchCanonical go_unicode t [tok "node"; tok " "; tok "x"] = (false, "", 0).
Proof. vm_compute. repeat split; reflexivity. Qed.

(** ** C35 Building *)

Theorem C35_build :
  forall (U : unicode) (scan : oracle), scanner_ok scan -> uIsSpace U 44 = false ->
  forall (ms : list (string * string)) (ignoreCase : bool) (ignored : list N),
  (forall k c, In (k, c) ms -> serr (scan (mkReader k None)) = None) ->
  exists D tr n, dictionary_of (key_tokens U scan) ms D /\
    built_from U scan ms ignoreCase ignored (mkBuilt (Some tr) n) /\
    (forall l, finds U ignoreCase ignored D l (SearchCanonical U tr l)) /\ widest D n.
Proof. exact C35_lemma. Qed.
Print Assumptions C35_build.

(** The mappings determine the dictionary. *)
Theorem C35_spec_is_functional :
  forall (U : unicode) (scan : oracle) ms D1 D2,
  dictionary_of (key_tokens U scan) ms D1 -> dictionary_of (key_tokens U scan) ms D2 -> D1 = D2.
Proof. exact C35_functional. Qed.
Print Assumptions C35_spec_is_functional.

Example C35_example :
  match build go_unicode words_scan 30 (mkConfig [("ecma script , es 6,  js", "javascript"); ("es 6", "es6")] true [32%N]) with
  | Ret (None, mkBuilt (Some t) n) =>
    (n, SearchCanonical go_unicode t [tok "JS"], SearchCanonical go_unicode t [tok "ecma"; tok "script"],
     SearchCanonical go_unicode t [tok "es"; tok "6"])
  | _ => (0, (false, "", 0), (false, "", 0), (false, "", 0))
  end = (2, (true, "javascript", 1), (true, "javascript", 2), (true, "es6", 2)).
Proof. vm_compute. reflexivity. Qed.

(** ** C36 Iteration order *)

(** [Same] (SynSpec.v): no caller can tell the two streams apart. *)
Theorem C36_order_irrelevant :
  forall (U : unicode) (scan : oracle), scanner_ok scan -> uIsSpace U 44 = false ->
  forall ms1 ms2 ignoreCase ignored D1 D2 b1 b2, Permutation ms1 ms2 ->
  dictionary_of (key_tokens U scan) ms1 D1 -> dictionary_of (key_tokens U scan) ms2 D2 ->
  (forall l1 c1 l2 c2, In (l1, c1) D1 -> In (l2, c2) D1 ->
     spelled U ignoreCase ignored l1 = spelled U ignoreCase ignored l2 -> c1 = c2) ->
  built_from U scan ms1 ignoreCase ignored b1 -> built_from U scan ms2 ignoreCase ignored b2 ->
  forall s, Same (SynFilter U None b1 s) (SynFilter U None b2 s).
Proof. exact C36_lemma. Qed.
Print Assumptions C36_order_irrelevant.

(** With a conflict the order does matter. *)
Example C36_example :
  let out ms := match build go_unicode words_scan 30 (mkConfig ms true []) with
    | Ret (None, b) => match ToSlice 30 (SynFilter go_unicode None b (source [tok "js"] None)) with
      | Ret ((l, _), _) => map tvalue l | _ => [] end | _ => [] end in
  out [("js", "javascript"); ("JS", "ecmascript")] = ["ecmascript"] /\
  out [("JS", "ecmascript"); ("js", "javascript")] = ["javascript"] /\
  out [("js", "javascript"); ("x", "y")] = out [("x", "y"); ("js", "javascript")].
Proof. vm_compute. repeat split; reflexivity. Qed.

(** ** C38, C39 The filter *)

Theorem C38_leftmost_longest :
  forall (U : unicode) (scan : oracle), scanner_ok scan -> uIsSpace U 44 = false ->
  forall ms ignoreCase ignored D b, dictionary_of (key_tokens U scan) ms D -> built_from U scan ms ignoreCase ignored b ->
  exists n, widest D n /\
    forall s l, Yields s l -> exists o, rewrites U ignoreCase ignored D n l o /\ Yields (SynFilter U None b s) o.
Proof. exact C38_lemma. Qed.
Print Assumptions C38_leftmost_longest.

(** The specification determines the output. *)
Theorem C38_spec_is_functional :
  forall U ignoreCase ignored D n l o1 o2,
  rewrites U ignoreCase ignored D n l o1 -> rewrites U ignoreCase ignored D n l o2 -> o1 = o2.
Proof. exact C38_functional. Qed.
Print Assumptions C38_spec_is_functional.

Example C38_example :
  match build go_unicode words_scan 30 (mkConfig [("ruby on rails, ror", "ruby-on-rails"); ("ruby", "Ruby"); ("um", "")] true [32; 45]%N) with
  | Ret (None, b) =>
    match ToSlice 60 (SynFilter go_unicode None b (source (map tok ["I"; " "; "um"; " "; "RoR"; ","; " "; "ruby"; " "; "on"; " "; "rails"; " "; "ruby"; " "; "on"; "."]) None)) with
    | Ret ((l, e), _) => (map tvalue l, map tlemma l, e) | _ => ([], [], None) end
  | _ => ([], [], None) end
  = (["I"; " "; " "; "ruby-on-rails"; ","; " "; "ruby-on-rails"; " "; "Ruby"; " "; "on"; "."],
     [false; false; false; true; false; false; true; false; true; false; false; false], None).
Proof. vm_compute. reflexivity. Qed.

Theorem C39_punctuation_is_kept :
  forall (U : unicode) (scan : oracle), scanner_ok scan -> uIsSpace U 44 = false ->
  forall ms ignoreCase ignored D b, dictionary_of (key_tokens U scan) ms D -> built_from U scan ms ignoreCase ignored b ->
  let F := SynFilter U None b in
  (forall s a p c sa sc, tpunct p = true -> Yields s (a ++ p :: c) -> Yields sa a -> Yields sc c ->
     exists oa oc, Yields (F sa) oa /\ Yields (F sc) oc /\ Yields (F s) (oa ++ p :: oc)) /\
  (exists n, widest D n /\ forall s l, Yields s l -> exists gs, l = concat (map fst gs) /\
     Yields (F s) (concat (map snd gs)) /\ Forall (group_ok U n) gs) /\
  (ms = [] -> forall s l, Yields s l -> Yields (F s) l).
Proof. exact C39_lemma. Qed.
Print Assumptions C39_punctuation_is_kept.

Example C39_example :
  match build go_unicode words_scan 30 (mkConfig [("ruby on rails", "ruby-on-rails")] true [32; 45]%N) with
  | Ret (None, b) =>
    match ToSlice 60 (SynFilter go_unicode None b (source (map tok ["ruby"; " "; "on"; ","; " "; "rails"]) None)) with
    | Ret ((l, e), _) => (map tvalue l, e) | _ => ([], None) end
  | _ => ([], None) end = (["ruby"; " "; "on"; ","; " "; "rails"], None).
Proof. vm_compute. reflexivity. Qed.

(** ** C40 Ignored characters *)

(** C40 is false: the hyphens of "ruby-on-rails" are ignored characters, but also punctuation, and end the run. *)
Theorem C40_refuted :
  ~ (forall U scan ms ic ig D b, scanner_ok scan -> uIsSpace U 44 = false -> dictionary_of (key_tokens U scan) ms D ->
     built_from U scan ms ic ig b ->
     forall s l c, l <> [] -> Forall (made U) l -> Yields s l -> means U ic ig D (spelled U ic ig l) c -> c <> EmptyString ->
     exists m, lemma_of U c m /\ Yields (SynFilter U None b s) [m]).
Proof. exact C40_refutation. Qed.
Print Assumptions C40_refuted.

(** It holds for a text (the tokens [l ++ [x]]) that starts and ends with a word, has no punctuation, has no
    more words than the longest synonym, and is followed by punctuation or by nothing. *)
Theorem C40_ignored_characters_partial :
  forall (U : unicode) (scan : oracle), scanner_ok scan -> uIsSpace U 44 = false ->
  forall ms ic ig D b, dictionary_of (key_tokens U scan) ms D -> built_from U scan ms ic ig b ->
  forall l rest x c n, widest D n ->
  word (hd x (l ++ [x])) -> word x -> (forall t, In t (l ++ [x]) -> tpunct t = false) ->
  words_in (l ++ [x]) <= n -> letters U ic ig (tvalue x) <> [] ->
  means U ic ig D (spelled U ic ig (l ++ [x])) c -> c <> EmptyString ->
  (rest = [] \/ exists p r, rest = p :: r /\ tpunct p = true) ->
  forall s sr, Yields s ((l ++ [x]) ++ rest) -> Yields sr rest ->
  exists m o, lemma_of U c m /\ Yields (SynFilter U None b sr) o /\ Yields (SynFilter U None b s) (m :: o).
Proof. exact C40_partial_lemma. Qed.
Print Assumptions C40_ignored_characters_partial.

Example C40_witness :
  match build go_unicode words_scan 30 (mkConfig [("ruby on rails", "ruby-on-rails"); ("reactjs", "react")] true [32; 45; 46; 47]%N) with
  | Ret (None, b) =>
    let run l := match ToSlice 60 (SynFilter go_unicode None b (source (map tok l) None)) with
      | Ret ((l, e), _) => map tvalue l | _ => [] end in
    (run ["ruby"; " "; " "; "on"; " "; "Rails"], run ["ruby"; "-"; "on"; "-"; "rails"], run ["React"; "."; "js"])
  | _ => ([], [], []) end = (["ruby-on-rails"], ["ruby"; "-"; "on"; "-"; "rails"], ["React"; "."; "js"]).
Proof. vm_compute. reflexivity. Qed.

(** ** C41 Streaming *)

(** C41 is false for every synonyms filter: no look-ahead is enough ... *)
Theorem C41_refuted :
  forall U scan ms ic ig D b, scanner_ok scan -> uIsSpace U 44 = false ->
  dictionary_of (key_tokens U scan) ms D -> built_from U scan ms ic ig b ->
  forall n, ~ lookahead n (SynFilter U None b).
Proof. exact C41_refutation. Qed.
Print Assumptions C41_refuted.

(** ... and on an endless source the first call of Next runs for ever. *)
Theorem C41_synonyms_diverge :
  forall U scan ms ic ig D b, scanner_ok scan -> uIsSpace U 44 = false ->
  dictionary_of (key_tokens U scan) ms D -> built_from U scan ms ic ig b ->
  forall f : nat -> token, Diverges (fun fuel => Next fuel (SynFilter U None b (sequence f))).
Proof. exact C41_synonyms_lemma. Qed.
Print Assumptions C41_synonyms_diverge.

(** All other filters stream, the sigil filters with a look-ahead of one token. *)
Theorem C41_streaming_partial :
  forall U scan, scanner_ok scan ->
  (forall F, plain_filter U scan F -> lookahead 0 F) /\
  (forall sigil legal, sigil <> EmptyString -> lookahead 1 (Sigil U sigil legal)) /\
  lookahead 1 (Handles U) /\ lookahead 1 (Hashtags U).
Proof. exact C41_partial_lemma. Qed.
Print Assumptions C41_streaming_partial.

(** Filters as in the theorem exist. *)
Example C41_example :
  exists D b, dictionary_of (key_tokens go_unicode words_scan) [("ruby on rails", "ruby-on-rails")] D /\
    built_from go_unicode words_scan [("ruby on rails", "ruby-on-rails")] true [32%N] b.
Proof. exact (concrete_built _ _ _). Qed.

(** ** C42 Tokens before an error *)

(** C42 is false for every synonyms filter and for every sigil filter. *)
Theorem C42_refuted :
  (forall U scan ms ic ig D b, scanner_ok scan -> uIsSpace U 44 = false ->
   dictionary_of (key_tokens U scan) ms D -> built_from U scan ms ic ig b -> ~ delivers (SynFilter U None b)) /\
  (forall U sigil legal, sigil <> EmptyString -> ~ delivers (Sigil U sigil legal)).
Proof. exact (conj C42_refutation C42_sigil_refutation). Qed.
Print Assumptions C42_refuted.

(** A synonyms filter loses everything before the error. *)
Theorem C42_synonyms_lose_all :
  forall (U : unicode) (scan : oracle), scanner_ok scan -> uIsSpace U 44 = false ->
  forall ms ic ig D b, dictionary_of (key_tokens U scan) ms D -> built_from U scan ms ic ig b ->
  forall s l e, Fails s l e -> Fails (SynFilter U None b s) [] e.
Proof. exact C42_synonyms_lemma. Qed.
Print Assumptions C42_synonyms_lose_all.

(** Chains of the other filters deliver, and sigil filters lose at most a last sigil. *)
Theorem C42_delivery_partial :
  forall U scan, scanner_ok scan ->
  (forall fs, Forall (plain_filter U scan) fs -> delivers (ApplyFilters fs)) /\
  (forall sigil legal, sigil <> EmptyString -> forall s l e, Fails s l e ->
     exists l0 lost o, l = l0 ++ lost /\ (lost = [] \/ exists c, lost = [c] /\ tvalue c = sigil) /\
       Fails (Sigil U sigil legal s) o e /\ joined U sigil legal l0 o).
Proof. exact C42_partial_lemma. Qed.
Print Assumptions C42_delivery_partial.

(** The error comes first; a caller who goes on after it does get the tokens. *)
Example C42_witness :
  match build go_unicode words_scan 30 (mkConfig [("ruby on rails", "ruby-on-rails")] true [32; 45]%N) with
  | Ret (None, b) =>
    match Next 60 (SynFilter go_unicode None b (source [tok "a"; tok "."] (Some "read failed"))) with
    | Ret (r1, s1) => match Next 60 s1 with Ret (r2, s2) => match Next 60 s2 with Ret (r3, _) => [r1; r2; r3] | _ => [] end | _ => [] end
    | _ => [] end
  | _ => [] end = [(None, Some "read failed"); (Some (tok "a"), None); (Some (tok "."), None)].
Proof. vm_compute. reflexivity. Qed.
