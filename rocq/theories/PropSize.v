(** * Property theorem C104: how much a text can grow *)

From Coq Require Import Permutation.
From Verif Require Import Base Utf8 Unicode UnicodeData Token Stream StreamSpec Tokenizer Words Filters Ascii Synonyms ContractionsTable Dictionaries
  FilterSpec SynSpec ChainSpec LineSpec SizeSpec DictProofs PropSizeLemmas.

(** Three times: a byte that is no UTF-8 becomes U+FFFD (C23). *)
Theorem C104_Fold : grows 3 1 (Fold go_unicode) /\ forall p q, grows p q (Fold go_unicode) -> 3 * q <= p.
Proof. exact (conj (proj1 fold_grows) fold_tight). Qed.
Print Assumptions C104_Fold.

(** 4/3 in UTF-8: U+247D becomes "(10)". *)
Theorem C104_Fold_utf8 : grows_utf8 4 3 (Fold go_unicode) /\ forall p q, grows_utf8 p q (Fold go_unicode) -> 4 * q <= 3 * p.
Proof. exact (conj (proj2 fold_grows) fold_utf8_tight). Qed.
Print Assumptions C104_Fold_utf8.

(** 7/3: "I'd" becomes "I would". *)
Theorem C104_Expand :
  grows 7 3 (Contractions go_unicode words_scan contraction_mappings) /\
  forall p q, grows p q (Contractions go_unicode words_scan contraction_mappings) -> 7 * q <= 3 * p.
Proof. exact (conj expand_grows expand_tight). Qed.
Print Assumptions C104_Expand.

(** 23/2: "ai" becomes "artificial-intelligence". *)
Theorem C104_Tags :
  forall ms b, Permutation (cf_mappings Tags_config) ms -> built_from go_unicode words_scan ms (cf_ignoreCase Tags_config) (cf_ignoreRunes Tags_config) b ->
  grows 23 2 (SynFilter go_unicode None b) /\ forall p q, grows p q (SynFilter go_unicode None b) -> 23 * q <= 2 * p.
Proof.
  exact (fun ms b P B => conj (shipped_grows _ _ 23 2 (proj1 (Nat.leb_le 2 23) eq_refl) so_table_ok words_scan_cuts_so Tags_sizes ms b P B)
    (fun p q => Tags_tight ms b p q P B)).
Qed.
Print Assumptions C104_Tags.

(** 5/3: "TJLeaf" becomes "T. J. Leaf". *)
Theorem C104_CurrentPlayers :
  forall ms b, Permutation (cf_mappings CurrentPlayers_config) ms ->
  built_from go_unicode words_scan ms (cf_ignoreCase CurrentPlayers_config) (cf_ignoreRunes CurrentPlayers_config) b ->
  grows 5 3 (SynFilter go_unicode None b) /\ forall p q, grows p q (SynFilter go_unicode None b) -> 5 * q <= 3 * p.
Proof.
  exact (fun ms b P B => conj (shipped_grows _ _ 5 3 (proj1 (Nat.leb_le 3 5) eq_refl) nba_table_ok words_scan_cuts_nba Players_sizes ms b P B)
    (fun p q => Players_tight ms b p q P B)).
Qed.
Print Assumptions C104_CurrentPlayers.

(** Any synonyms filter: the largest ratio of a canonical term to the letters of a synonym for it. *)
Theorem C104_synonyms :
  forall (U : unicode) (scan : oracle) ms ic ig D b p q, scanner_ok scan -> uIsSpace U 44 = false -> q <= p ->
  dictionary_of (key_tokens U scan) ms D -> built_from U scan ms ic ig b ->
  (forall m c, In (m, c) D -> q * String.length c <= p * length (spelled U ic ig m)) -> grows p q (SynFilter U None b).
Proof. exact syn_grows. Qed.
Print Assumptions C104_synonyms.

(** The others never make a text longer. *)
Theorem C104_no_growth :
  forall (U : unicode) (F : Filter), selecting U F \/ F = Distinct \/ F = Handles U \/ F = Hashtags U -> grows 1 1 F.
Proof. exact selecting_grows. Qed.
Print Assumptions C104_no_growth.

(** In a row the factors multiply. *)
Theorem C104_chain :
  forall fs ps qs, length fs = length ps -> length ps = length qs ->
  Forall (fun x => grows (fst (snd x)) (snd (snd x)) (fst x)) (combine fs (combine ps qs)) -> grows (product ps) (product qs) (ApplyFilters fs).
Proof. exact grows_chain. Qed.
Print Assumptions C104_chain.

(** Fold, then Expand: sevenfold at most. *)
Example C104_example : grows 21 3 (ApplyFilters [Fold go_unicode; Contractions go_unicode words_scan contraction_mappings]).
Proof.
  apply (C104_chain [Fold go_unicode; Contractions go_unicode words_scan contraction_mappings] [3; 7] [1; 3] eq_refl eq_refl).
  constructor; [exact (proj1 C104_Fold)|]. constructor; [exact (proj1 C104_Expand)|constructor].
Qed.
