(** * Remaining lemmas behind C34 - C38 (C34_lemma and the functionality of the specifications). *)

From Verif Require Import Base Utf8 Unicode Token Stream StreamSpec Tokenizer Trie Synonyms FilterSpec SynSpec ChainSpec
  StreamProofs TrieProofs SynProofs BuildProofs.

Lemma C34_lemma (U : unicode) ic ig D l :
  finds U ic ig D l (SearchCanonical U (fold_left (fun t e => trie_Add U t (fst e) (snd e)) D (trie_New ic ig)) l).
Proof. apply SearchCanonical_spec. apply (repr_addall U ic ig D _ []), repr_New. Qed.

Lemma C34_functional U ic ig D l r1 r2 : finds U ic ig D l r1 -> finds U ic ig D l r2 -> r1 = r2.
Proof. apply finds_inj. Qed.

Lemma C35_functional (U : unicode) (scan : oracle) ms D1 D2 :
  dictionary_of (key_tokens U scan) ms D1 -> dictionary_of (key_tokens U scan) ms D2 -> D1 = D2.
Proof. intros H1 H2. eapply dictionary_of_inj; eauto. intros k l1 l2. apply Yields_inj. Qed.

Lemma C38_functional U ic ig D n l o1 o2 : rewrites U ic ig D n l o1 -> rewrites U ic ig D n l o2 -> o1 = o2.
Proof. apply (rewrites_inj U ic ig D n (S (length l)) _ _ _ (le_n _)). Qed.
