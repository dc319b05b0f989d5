(** * Property theorems C107 *)

From Verif Require Import Base Utf8 Unicode UnicodeData Token Stream StreamSpec Tokenizer Words Filters Synonyms
  FilterSpec SynSpec ChainSpec Sources OrderSpec NilSpec PropFiltersLemmas MergeSpec PropMergeLemmas.

(** False for synonyms: with "b" for "a" and "c" for "b", two filters make "c" of "a", one makes "b". *)
Theorem C107_refuted : ~ (forall ms extra ic ig b b2 b',
  built_from go_unicode words_scan ms ic ig b -> built_from go_unicode words_scan extra ic ig b2 ->
  built_from go_unicode words_scan (ms ++ extra) ic ig b' ->
  forall l, as_one (SynFilter go_unicode None b) (SynFilter go_unicode None b2) (SynFilter go_unicode None b') l).
Proof. exact C107_refutation. Qed.
Print Assumptions C107_refuted.

(** Two stop lists are one list. *)
Theorem C107_stopwords_partial : forall U ws ws' ic l,
  as_one (Stopwords U ws ic) (Stopwords U ws' ic) (Stopwords U (ws ++ ws') ic) l.
Proof. exact C107_stop. Qed.
Print Assumptions C107_stopwords_partial.

(** Two mappers are one mapper if no function returns nil for the tokens at hand. *)
Theorem C107_mapper_partial : forall fs gs l m o, Forall2 (goes fs) l m -> Forall2 (goes gs) m o ->
  as_one (Mapper fs) (Mapper gs) (Mapper (fs ++ gs)) l.
Proof. exact C107_mapper. Qed.
Print Assumptions C107_mapper_partial.

(** If the last function of the first mapper returns nil, two mappers end there, and one panics. *)
Theorem C107_nil : forall fs f g gs s a mid out s1 t u s2,
  Forall2 (goes (fs ++ [f])) a mid -> Forall2 (goes (g :: gs)) mid out -> Pulls s a s1 ->
  Nexts s1 (Some t, None) s2 -> goes fs t u -> f u = None ->
  (exists w, Returns (fun n => ToSlice n (Mapper (g :: gs) (Mapper (fs ++ [f]) s))) ((out, None), w)) /\
  Panics (fun n => ToSlice n (Mapper ((fs ++ [f]) ++ g :: gs) s)).
Proof. exact C107_nil_lemma. Qed.
Print Assumptions C107_nil.

(** Two dictionaries are one if the synonyms of the second, of no more words than those of the first, occur neither in the text nor in
    what the first makes of it. *)
Theorem C107_synonyms_partial : forall U scan, scanner_ok scan -> uIsSpace U 44 = false ->
  forall ms extra ic ig D E b b2 b', dictionary_of (key_tokens U scan) ms D -> dictionary_of (key_tokens U scan) extra E ->
  built_from U scan ms ic ig b -> built_from U scan extra ic ig b2 -> built_from U scan (ms ++ extra) ic ig b' ->
  (forall n l c, widest D n -> In (l, c) E -> words_in l <= n) ->
  forall s l o, Yields s l -> Yields (SynFilter U None b s) o ->
  (forall g l' c', run_of g l \/ run_of g o -> In (l', c') E -> spelled U ic ig l' <> spelled U ic ig g) ->
  Yields (SynFilter U None b2 (SynFilter U None b s)) o /\ Yields (SynFilter U None b' s) o.
Proof. exact C107_synonyms. Qed.
Print Assumptions C107_synonyms_partial.

Example C107_example_stopwords :
  let out s := match ToSlice 20 s with Ret ((l, e), _) => (map tvalue l, e) | _ => ([], None) end in
  let s := source [tok "the"; tok "cat"; tok "A"; tok "hat"]%string None in
  out (Stopwords go_unicode ["a"]%string true (Stopwords go_unicode ["The"]%string true s)) = (["cat"; "hat"]%string, None) /\
  out (Stopwords go_unicode ["The"; "a"]%string true s) = (["cat"; "hat"]%string, None).
Proof. vm_compute. auto. Qed.

Example C107_example_nil :
  let s := source [tok "a"; tok "b"; tok "c"]%string None in
  goes [] (tok "b"%string) (tok "b"%string) /\ drop_b (tok "b"%string) = None /\
  match ToSlice 9 (Mapper [Some] (Mapper [drop_b] s)) with Ret ((l, e), _) => Some (map tvalue l, e) | _ => None end = Some (["a"%string], None) /\
  ToSlice 9 (Mapper [drop_b; Some] s) = Panic.
Proof. split; [constructor|]. vm_compute. auto. Qed.

(** Of the two dictionaries the second does not matter to "go lang"; to "a" it does. *)
Example C107_example_synonyms :
  let built ms := match build go_unicode words_scan 40 (mkConfig ms true [32%N]) with Ret (None, b) => Some b | _ => None end in
  let out s := match ToSlice 60 s with Ret ((l, _), _) => map tvalue l | _ => [] end in
  let one := [("go lang", "go"); ("a", "b")]%string in let two := [("b", "c"); ("x y", "z")]%string in
  match built one, built two, built (one ++ two) with
  | Some b, Some b2, Some b' => map (fun t => let s := TokenizeString go_unicode words_scan t in
      (out (SynFilter go_unicode None b2 (SynFilter go_unicode None b s)), out (SynFilter go_unicode None b' s))) ["go lang."; "a"]%string
  | _, _, _ => [] end = [(["go"; "."], ["go"; "."]); (["c"], ["b"])]%string.
Proof. vm_compute. reflexivity. Qed.
