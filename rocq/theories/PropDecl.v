(** * Property theorem C69: String and Decl *)

From Verif Require Import Base Utf8 Unicode UnicodeData Token Stream Tokenizer Queue Trie Synonyms Words RenderSpec Decl DeclSpec PropRenderLemmas PropDeclLemmas.
Local Open Scope N_scope.

(** Decl is documented to return Go source.  A synonym with an apostrophe: whatever the order, the text has three single quotes in a row
    where a rune literal should be. *)
Theorem C69_refuted : exists U scan fuel cfg b, build U scan fuel cfg = Ret (None, b) /\ forall isPrint s, prints isPrint b s -> ~ lexes s.
Proof. exact C69_refutation. Qed.
Print Assumptions C69_refuted.

(** Missing: runes that have to be escaped in a literal; that the names in the text are declared (there is no synonyms.Filter, trie.Node,
    nor a field Trie, Root, ...: they are in lower case, and cannot be used in another package). *)
Theorem C69_lexes_partial : forall isPrint b, print_ok isPrint ->
  match b_trie b with Some t => (forall r, In r (t_ignore t) -> writable r) /\ all_runes writable (t_root t) | None => True end ->
  (exists s, prints isPrint b s) /\ forall s, prints isPrint b s -> lexes s.
Proof. exact C69_partial_lemma. Qed.
Print Assumptions C69_lexes_partial.

(** Filters whose declarations can be the same recognise the same. *)
Theorem C69_tells_filters_apart : forall isPrint, print_ok isPrint -> forall U1 scan1 fuel1 cfg1 e1 b1 U2 scan2 fuel2 cfg2 e2 b2 s,
  (forall r, valid_rune r = true -> valid_rune (uToLower U1 r) = true) -> (forall r, valid_rune r = true -> valid_rune (uToLower U2 r) = true) ->
  (forall r, In r (cf_ignoreRunes cfg1) -> valid_rune r = true) -> (forall r, In r (cf_ignoreRunes cfg2) -> valid_rune r = true) ->
  build U1 scan1 fuel1 cfg1 = Ret (e1, b1) -> build U2 scan2 fuel2 cfg2 = Ret (e2, b2) ->
  prints isPrint b1 s -> prints isPrint b2 s -> b_maxWords b1 = b_maxWords b2 /\
  match b_trie b1, b_trie b2 with
  | Some t, Some t' => forall U tokens, SearchCanonical U t tokens = SearchCanonical U t' tokens
  | None, None => True
  | _, _ => False
  end.
Proof. exact C69_lemma. Qed.
Print Assumptions C69_tells_filters_apart.

(** The same for queues: the text gives the tokens' values. *)
Theorem C69_queues : forall isPrint q1 q2, print_ok isPrint -> queue_String isPrint q1 = queue_String isPrint q2 -> map tvalue q1 = map tvalue q2.
Proof. exact queue_unique. Qed.
Print Assumptions C69_queues.

(** What they say, word for word. *)
Theorem C69_text : forall isPrint b s, print_ok isPrint -> prints isPrint b s -> filter_text b s.
Proof. exact C69_text_lemma. Qed.
Print Assumptions C69_text.

Theorem C69_queue_text : forall isPrint q, print_ok isPrint -> queue_text (map tvalue q) (queue_String isPrint q).
Proof. exact C69_queue_text_lemma. Qed.
Print Assumptions C69_queue_text.

Definition ascii_print (r : N) : bool := (32 <=? r) && (r <? 127).
Example C69_example_print : print_ok ascii_print.
Proof. exact ascii_print_ok. Qed.

Example C69_example :
  match build go_unicode words_scan 20 (mkConfig [("go", "golang")]%string true [45]) with
  | Ret (None, mkBuilt (Some t) n) => Some (filter_String (Some (trie_String ascii_print (t_ignore t) (t_ignoreCase t) (t_root t))) n)
  | _ => None
  end = Some ("&synonyms.Filter{
Trie: &trie.RuneTrie{
Ignore: map[rune]bool{
'-': true,
},
IgnoreCase: true,
Root: &trie.Node{
Children: map[rune]*trie.Node{
'g': &trie.Node{
Children: map[rune]*trie.Node{
'o': &trie.Node{
	HasCanonical: true,
Canonical: ""golang"",
},
},
},
},
},
},
MaxWords: 1,
}")%string.
Proof. vm_compute. reflexivity. Qed.

Example C69_example_queue : queue_String ascii_print [mkToken "a" false false false; mkToken " " false true false; mkToken (String (chr 255) "") false false false] =
  ("[""a"" "" "" ""\xff""]")%string.
Proof. vm_compute. reflexivity. Qed.
