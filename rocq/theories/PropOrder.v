(** * Property theorems C71 - C73 *)

From Verif Require Import Base Utf8 Unicode UnicodeData Token Stream StreamSpec Tokenizer Words Filters Synonyms
  FilterSpec SynSpec ChainSpec Sources LineSpec OrderSpec WordsProofs PropOrderLemmas PropWiderLemmas.

(** ** C71 Selecting filters *)

(** Distinct and Lemmas: of the tokens "a" and lemma "a", Distinct keeps the first. *)
Theorem C71_refuted : ~ (forall U l, Forall (made U) l -> either_order Lemmas Distinct l).
Proof. exact C71_refutation. Qed.
Print Assumptions C71_refuted.

(** Filters that look at each token alone can be applied in any order. *)
Theorem C71_selecting_partial : forall U F G, selecting U F -> selecting U G -> forall l, either_order F G l.
Proof. exact C71_selecting. Qed.
Print Assumptions C71_selecting_partial.

(** Two of them are one. *)
Theorem C71_fused_partial : forall p q s l,
  (Yields s l -> exists l', Yields (Where p (Where q s)) l' /\ Yields (Where (fun t => q t && p t) s) l') /\
  (forall e, Fails s l e -> exists l', Fails (Where p (Where q s)) l' e /\ Fails (Where (fun t => q t && p t) s) l' e).
Proof. exact C71_fused. Qed.
Print Assumptions C71_fused_partial.

(** Distinct can change places with those that look only at the text of a token, and with Words. *)
Theorem C71_distinct_partial : forall U l,
  (forall p, (forall t t', In t l -> In t' l -> tvalue t = tvalue t' -> p t = p t') -> either_order (Where p) Distinct l) /\
  (forall words ic, either_order (Stopwords U words ic) Distinct l) /\
  (Forall (made U) l -> either_order Words Distinct l).
Proof. exact C71_distinct. Qed.
Print Assumptions C71_distinct_partial.

Example C71_example :
  let out s := match ToSlice 20 s with Ret ((l, e), _) => (map tvalue l, e) | _ => ([], None) end in
  let s := source [tok "a"; tok " "; lem "b"; tok "a"; lem "a"; tok " "; lem "b"]%string None in
  out (Words (Distinct s)) = (["a"; "b"]%string, None) /\ out (Distinct (Words s)) = (["a"; "b"]%string, None) /\
  out (Lemmas (Distinct s)) = (["b"]%string, None) /\ out (Distinct (Lemmas s)) = (["b"; "a"]%string, None).
Proof. vm_compute. auto. Qed.

(** ** C72 Only the letters matter *)

Theorem C72_letters_only :
  forall (U : unicode) (scan : oracle), scanner_ok scan -> uIsSpace U 44 = false ->
  forall ms ic ig D b, dictionary_of (key_tokens U scan) ms D -> built_from U scan ms ic ig b ->
  forall s1 l1 s2 l2, Yields s1 l1 -> Yields s2 l2 -> Forall2 (similar U ic ig) l1 l2 ->
  exists o1 o2, Yields (SynFilter U None b s1) o1 /\ Yields (SynFilter U None b s2) o2 /\ same_replacements U l1 l2 o1 o2.
Proof. exact C72_lemma. Qed.
Print Assumptions C72_letters_only.

Example C72_example_similar : Forall2 (similar go_unicode true [45%N])
  [tok "Ruby"; tok " "; tok "on"; tok " "; tok "RAILS"]%string [tok "ru-by"; tok " "; tok "ON"; tok " "; tok "-rails"]%string.
Proof. repeat constructor. Qed.
Example C72_example :
  match build go_unicode words_scan 40 (mkConfig [("rubyonrails", "ruby-on-rails"); ("on", "On")]%string true [45%N; 32%N]) with
  | Ret (None, b) =>
    let out l := match ToSlice 60 (SynFilter go_unicode None b (source l None)) with Ret ((l, e), _) => (map tvalue l, e) | _ => ([], None) end in
    (out [tok "Ruby"; tok " "; tok "on"; tok "."]%string, out [tok "ru-by"; tok " "; tok "O-n"; tok "."]%string)
  | _ => (([], None), ([], None)) end
  = ((["Ruby"; " "; "On"; "."], None), (["ru-by"; " "; "On"; "."], None))%string.
Proof. vm_compute. reflexivity. Qed.

(** ** C73 Adding synonyms *)

(** With another synonym of more words the filter considers more words at once. *)
Theorem C73_refuted :
  ~ (forall U scan ms extra ic ig D E b b', scanner_ok scan -> uIsSpace U 44 = false ->
     dictionary_of (key_tokens U scan) ms D -> dictionary_of (key_tokens U scan) extra E ->
     built_from U scan ms ic ig b -> built_from U scan (ms ++ extra) ic ig b' ->
     forall s l, Yields s l -> (forall g l' c', run_of g l -> In (l', c') E -> spelled U ic ig l' <> spelled U ic ig g) ->
     exists o, Yields (SynFilter U None b s) o /\ Yields (SynFilter U None b' s) o).
Proof. exact C73_refutation. Qed.
Print Assumptions C73_refuted.

Example C73_example_refuted :
  let out ms := match build go_unicode words_scan 40 (mkConfig ms true [32%N]) with
    | Ret (None, b) => match ToSlice 60 (SynFilter go_unicode None b (TokenizeString go_unicode words_scan "r u b y"%string)) with
      | Ret ((l, _), _) => map tvalue l | _ => [] end | _ => [] end in
  out [("ruby", "Ruby")]%string = ["r"; " "; "u"; " "; "b"; " "; "y"]%string /\
  out [("ruby", "Ruby"); ("a c d e", "x")]%string = ["Ruby"]%string.
Proof. vm_compute. auto. Qed.

(** Added synonyms without more words than the others do not matter to a text where they do not occur. *)
Theorem C73_no_more_words_partial :
  forall (U : unicode) (scan : oracle), scanner_ok scan -> uIsSpace U 44 = false ->
  forall ms extra ic ig D E b b', dictionary_of (key_tokens U scan) ms D -> dictionary_of (key_tokens U scan) extra E ->
  built_from U scan ms ic ig b -> built_from U scan (ms ++ extra) ic ig b' ->
  (forall n l c, widest D n -> In (l, c) E -> words_in l <= n) ->
  forall s l, Yields s l -> (forall g l' c', run_of g l -> In (l', c') E -> spelled U ic ig l' <> spelled U ic ig g) ->
  exists o, Yields (SynFilter U None b s) o /\ Yields (SynFilter U None b' s) o.
Proof. exact C73_lemma. Qed.
Print Assumptions C73_no_more_words_partial.

Example C73_example :
  let out ms := match build go_unicode words_scan 40 (mkConfig ms true [32%N]) with
    | Ret (None, b) => match ToSlice 60 (SynFilter go_unicode None b (TokenizeString go_unicode words_scan "ruby go lang r u b y"%string)) with
      | Ret ((l, _), _) => map tvalue l | _ => [] end | _ => [] end in
  out [("go lang", "go"); ("ruby", "Ruby")]%string = ["Ruby"; " "; "go"; " "; "r"; " "; "u"; " "; "b"; " "; "y"]%string /\
  out [("go lang", "go"); ("ruby", "Ruby"); ("a c", "x")]%string = ["Ruby"; " "; "go"; " "; "r"; " "; "u"; " "; "b"; " "; "y"]%string.
Proof. vm_compute. auto. Qed.

(** All that added synonyms do to a text where they do not occur is that more words are considered at once. *)
Theorem C73_only_more_words :
  forall (U : unicode) (scan : oracle), scanner_ok scan -> uIsSpace U 44 = false ->
  forall ms extra ic ig D E b', dictionary_of (key_tokens U scan) ms D -> dictionary_of (key_tokens U scan) extra E ->
  built_from U scan (ms ++ extra) ic ig b' ->
  forall s l, Yields s l -> (forall g l' c', run_of g l -> In (l', c') E -> spelled U ic ig l' <> spelled U ic ig g) ->
  exists m o, widest (D ++ E) m /\ Yields (SynFilter U None b' s) o /\ rewrites U ic ig D m l o.
Proof. exact C73_meaning_lemma. Qed.
Print Assumptions C73_only_more_words.

(** That makes no difference unless a synonym is spread over more words than before are considered: the other synonyms must be spelled
    by their first [n] words, [n] the most words of one of them. *)
Theorem C73_wider_partial :
  forall (U : unicode) (scan : oracle), scanner_ok scan -> uIsSpace U 44 = false ->
  forall ms extra ic ig D E b b' n m, dictionary_of (key_tokens U scan) ms D -> dictionary_of (key_tokens U scan) extra E ->
  built_from U scan ms ic ig b -> built_from U scan (ms ++ extra) ic ig b' -> widest D n -> widest (D ++ E) m ->
  forall s l, Yields s l -> (forall g l' c', run_of g l -> In (l', c') E -> spelled U ic ig l' <> spelled U ic ig g) ->
  (forall g c, run_of g l -> window m g = g -> means U ic ig D (spelled U ic ig g) c -> spelled U ic ig (window n g) = spelled U ic ig g) ->
  exists o, Yields (SynFilter U None b s) o /\ Yields (SynFilter U None b' s) o.
Proof. exact C73_wider_lemma. Qed.
Print Assumptions C73_wider_partial.

(** A run of three words that spells a synonym although its first word does not; and a run that its first word spells. *)
Example C73_example_wider :
  let g := [tok "ru"; tok " "; tok "by"]%string in let h := [tok "ruby"; tok " "]%string in
  window 4 g = g /\ spelled go_unicode true [32%N] g = spelled go_unicode true [32%N] [tok "ruby"%string] /\
  spelled go_unicode true [32%N] (window 1 g) <> spelled go_unicode true [32%N] g /\
  window 4 h = h /\ spelled go_unicode true [32%N] (window 1 h) = spelled go_unicode true [32%N] h.
Proof. vm_compute. repeat split; discriminate. Qed.
