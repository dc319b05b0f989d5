(** * Property theorems C94 *)

From Verif Require Import Base Utf8 Unicode UnicodeData Token Stream StreamSpec Tokenizer Words Filters ContractionsTable Synonyms
  FilterSpec SynSpec ChainSpec LineSpec ExpandSpec OrderSpec UpperTable CaseSpec Sources WordsProofs PropOrderLemmas PropCaseLemmas.
Local Open Scope N_scope.

(** C94 is false: of the stop word "tous" in Greek letters, with a final sigma, the text in capital letters is not recognised. *)
Theorem C94_refuted :
  ~ (forall words s1 l1 s2 l2, Yields s1 l1 -> Yields s2 l2 -> Forall2 in_capitals l1 l2 ->
     exists o1 o2, Yields (Stopwords go_unicode words true s1) o1 /\ Yields (Stopwords go_unicode words true s2) o2 /\ Forall2 in_capitals o1 o2).
Proof. exact C94_refutation. Qed.
Print Assumptions C94_refuted.

(** The letters that differ in lower case from their capital letter are the 23 listed. *)
Theorem C94_letters : forall r, uToLower go_unicode (capital r) = uToLower go_unicode r <-> ~ In r second_letters.
Proof. exact lower_capital. Qed.
Print Assumptions C94_letters.

Example C94_example_letters : capital 962 = 931 /\ uToLower go_unicode 931 = 963 /\ uToLower go_unicode 962 = 962 /\ In 962 second_letters /\
  capital 233 = 201 /\ uToLower go_unicode 201 = 233.
Proof. repeat split; try reflexivity. cbn. tauto. Qed.

(** A stop word filter treats a token and the token in capital letters alike, whatever the stop words, exactly when the token has none of these letters. *)
Theorem C94_stopwords_exactly : forall t u, in_capitals t u ->
  ((forall words s1 s2, Yields s1 [t] -> Yields s2 [u] ->
      (Yields (Stopwords go_unicode words true s1) [] <-> Yields (Stopwords go_unicode words true s2) [])) <-> first_letters (tvalue t)).
Proof. exact C94_stopwords_exact. Qed.
Print Assumptions C94_stopwords_exactly.

Theorem C94_stopwords_partial : forall words s1 l1 s2 l2, Yields s1 l1 -> Yields s2 l2 -> Forall2 in_capitals l1 l2 -> Forall (fun t => first_letters (tvalue t)) l1 ->
  exists o1 o2, Yields (Stopwords go_unicode words true s1) o1 /\ Yields (Stopwords go_unicode words true s2) o2 /\ Forall2 in_capitals o1 o2.
Proof. exact C94_stopwords. Qed.
Print Assumptions C94_stopwords_partial.

Theorem C94_synonyms_partial : forall (scan : oracle), scanner_ok scan ->
  forall ms ig D b, dictionary_of (key_tokens go_unicode scan) ms D -> built_from go_unicode scan ms true ig b ->
  forall s1 l1 s2 l2, Yields s1 l1 -> Yields s2 l2 -> Forall2 in_capitals l1 l2 -> Forall (fun t => first_letters (tvalue t)) l1 ->
  exists o1 o2, Yields (SynFilter go_unicode None b s1) o1 /\ Yields (SynFilter go_unicode None b s2) o2 /\ same_replacements go_unicode l1 l2 o1 o2.
Proof. exact C94_synonyms. Qed.
Print Assumptions C94_synonyms_partial.

Theorem C94_contractions_partial : forall s1 l1 s2 l2, Yields s1 l1 -> Yields s2 l2 -> Forall2 in_capitals l1 l2 -> Forall (fun t => first_letters (tvalue t)) l1 ->
  exists o1 o2, Yields (Contractions go_unicode words_scan contraction_mappings s1) o1 /\
    Yields (Contractions go_unicode words_scan contraction_mappings s2) o2 /\ Forall2 same_spelling o1 o2.
Proof. exact C94_contractions. Qed.
Print Assumptions C94_contractions_partial.

(** The tokens of a text in capital letters are the tokens of the text in capital letters, unless it has an iota subscript (a mark with a letter for capital)
    or a circled m (its capital letter is a pictograph). *)
Theorem C94_tokens_partial : forall s, Forall (fun r => r <> 837 /\ r <> 9436) (runes s) ->
  exists l1 l2, Yields (TokenizeString go_unicode words_scan s) l1 /\ Yields (TokenizeString go_unicode words_scan (capitals s)) l2 /\
    Forall2 in_capitals l1 l2 /\ (first_letters s -> Forall (fun t => first_letters (tvalue t)) l1).
Proof. exact C94_tokens. Qed.
Print Assumptions C94_tokens_partial.

Example C94_example :
  let out words v := match ToSlice 20 (Stopwords go_unicode words true (TokenizeString go_unicode words_scan v)) with Ret ((l, e), _) => (map tvalue l, e) | _ => ([], None) end in
  let ete := encode [233; 116; 233] in
  out [ete] (ete ++ " was")%string = ([" "; "was"]%string, None) /\ capitals (ete ++ " was") = (encode [201; 84; 201] ++ " WAS")%string /\
  out [ete] (capitals (ete ++ " was")) = ([" "; "WAS"]%string, None).
Proof. split; [|split]; vm_compute; reflexivity. Qed.

(** Both exceptions are needed. *)
Example C94_example_breaks :
  map (fun v => (List.length (word_segments v), List.length (word_segments (capitals v)))) [encode [33; 837]; encode [8205; 9436]] = [(1, 2); (2, 1)]%nat.
Proof. vm_compute. reflexivity. Qed.
