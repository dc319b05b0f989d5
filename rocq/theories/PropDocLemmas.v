(** * Proofs about the examples in the documentation (C112) *)

From Coq Require Import Permutation.
From Verif Require Import Base Utf8 Unicode UnicodeData Token Stream StreamSpec Tokenizer Words Filters Ascii Trie Synonyms ContractionsTable Dictionaries SoTable
  FilterSpec SynSpec ChainSpec LineSpec TextSpec SentenceSpec DocSpec StreamProofs TokenProofs FilterProofs WordsProofs TrieProofs SynProofs BuildProofs ChainProofs DictProofs
  PropSynLemmas2 PropSynLemmas4 PropSynLemmas5 PropStableLemmas PropFoldExpandLemmas PropSentenceLemmas.
Local Open Scope string_scope.

Lemma afresh_list l : forall last, (forall a q, In (a, q) l -> In q sentence_ends /\ begins_afresh a) -> begins_afresh last -> begins_afresh (joined_sentences l ++ last).
Proof.
  induction l as [|[a p] l IH]; intros last H L; [exact L|].
  assert (E : (joined_sentences ((a, p) :: l) ++ last)%string = (a ++ p ++ " " ++ joined_sentences l ++ last)%string).
  { unfold joined_sentences. cbn [map fst snd sconcat]. now rewrite !sapp_assoc. }
  rewrite E. destruct (H a p (or_introl eq_refl)). now apply afresh_more.
Qed.

Lemma makes_alone fs x y o : Forall shipped fs -> begins_afresh x -> processed go_unicode words_scan fs x o -> text o = y -> makes fs x y.
Proof.
  intros H Bx P E. exists o. split; [exact P|]. split; [exact E|]. intros before p after last Hs Ip Bl.
  destruct (C98_list fs H after last (fun a q I => Hs a q (or_intror I)) Bl) as (outs2 & o' & _ & _ & P2).
  pose proof (afresh_list after last (fun a q I => Hs a q (or_intror I)) Bl) as Ba. set (R := joined_sentences after ++ last) in *.
  assert (Bm : begins_afresh (x ++ p ++ " " ++ R)) by (now apply afresh_more).
  destruct (C98_list fs H before (x ++ p ++ " " ++ R) (fun a q I => Hs a q (or_introl I)) Bm) as (outs & om & F & Pm & W).
  exists outs. eexists. split; [exact F|]. split; [exact P2|].
  pose proof (two_sentences fs H x p R _ _ Ip Ba P P2) as Q. rewrite (Yields_inj _ _ _ Pm Q) in W. exact W.
Qed.

(** ** The tables *)

Definition documented_ok (ms : list (string * string)) : bool :=
  let D := entries ms in let t := addall go_unicode (trie_New true [32; 45; 46; 47]%N) D in let w := widths D in
  forallb (fun xy => let l := map (piece_token go_unicode) (word_segments (fst xy)) in seqb (text (rw go_unicode (List.length l) t w l)) (snd xy)) documented_tags.

Lemma documented_run ms x y : documented_ok ms = true -> In (x, y) documented_tags ->
  text (run ms true [32; 45; 46; 47]%N (map (piece_token go_unicode) (word_segments x))) = y.
Proof.
  unfold documented_ok, run. generalize documented_tags. intros tags T I. rewrite forallb_forall in T. specialize (T _ I). apply seqb_eq in T. exact T.
Qed.

Lemma documented_true : documented_ok so_mappings = true.
Proof. vm_cast_no_check (eq_refl true). Qed.

Lemma documented_fresh x y : In (x, y) (documented_tags ++ documented_contractions ++ documented_folds) -> begins_afresh x.
Proof.
  intros I. cbn in I. repeat (destruct I as [I|I]; [injection I as <- _; vm_compute; split; [intuition discriminate|discriminate]|]). destruct I.
Qed.

Lemma C112_tags_lemma ms D b : Permutation (cf_mappings Tags_config) ms -> dictionary_of (key_tokens go_unicode words_scan) ms D ->
  built_from go_unicode words_scan ms (cf_ignoreCase Tags_config) (cf_ignoreRunes Tags_config) b ->
  forall x y, In (x, y) documented_tags -> makes [SynFilter go_unicode None b] x y.
Proof.
  intros P Dd B x y I. pose proof (TokenizeString_yields go_unicode words_scan words_scan_ok x eq_refl) as Y.
  pose proof (shipped_run so_mappings [32; 45; 46; 47]%N so_table_ok words_scan_cuts_so ms b _ _ P B Y) as Yo.
  eapply makes_alone; [constructor; [eapply SH_synonyms; eassumption|constructor]|apply (documented_fresh x y), in_or_app; now left|exact Yo|].
  exact (documented_run _ x y documented_true I).
Qed.

Lemma expanded_alone x y : In (x, y) documented_contractions -> text (flat_map (expand_token go_unicode words_scan contraction_mappings) (map (piece_token go_unicode) (word_segments x))) = y ->
  makes [Contractions go_unicode words_scan contraction_mappings] x y.
Proof.
  intros I E. pose proof (TokenizeString_yields go_unicode words_scan words_scan_ok x eq_refl) as Y.
  eapply makes_alone; [constructor; [apply SH_expand|constructor]|apply (documented_fresh x y), in_or_app; right; apply in_or_app; now left| |exact E].
  apply (Contractions_yields go_unicode words_scan contraction_mappings words_scan_ok (fun k v _ => eq_refl) _ _ Y).
Qed.

Lemma C112_contractions_lemma x y : In (x, y) documented_contractions -> x <> "don't" -> makes [Contractions go_unicode words_scan contraction_mappings] x y.
Proof.
  intros I N. apply expanded_alone; [exact I|]. cbn in I.
  destruct I as [I|[I|[I|[I|[]]]]]; injection I as <- <-; try (vm_compute; reflexivity). now destruct N.
Qed.

Lemma C112_dont_lemma : In ("don't", "does not") documented_contractions /\ ~ makes [Contractions go_unicode words_scan contraction_mappings] "don't" "does not" /\
  makes [Contractions go_unicode words_scan contraction_mappings] "don't" "do not".
Proof.
  pose proof (TokenizeString_yields go_unicode words_scan words_scan_ok "don't" eq_refl) as Y.
  pose proof (Contractions_yields go_unicode words_scan contraction_mappings words_scan_ok (fun k v _ => eq_refl) _ _ Y) as Yo.
  split; [cbn; auto|]. split.
  - intros (o & P & E & _). rewrite (Yields_inj _ _ _ P Yo) in E. vm_compute in E. discriminate E.
  - eapply makes_alone; [constructor; [apply SH_expand|constructor]| |exact Yo|vm_compute; reflexivity].
    vm_compute. split; [intuition discriminate|discriminate].
Qed.

Lemma C112_folds_lemma x y : In (x, y) documented_folds -> makes [Fold go_unicode] x y.
Proof.
  intros I. pose proof (TokenizeString_yields go_unicode words_scan words_scan_ok x eq_refl) as Y.
  destruct (shipped_processed [Fold go_unicode] x ltac:(constructor; [apply SH_fold|constructor])) as (o & P).
  eapply makes_alone; [constructor; [apply SH_fold|constructor]|apply (documented_fresh x y), in_or_app; right; apply in_or_app; now right|exact P|].
  change (Yields (Fold go_unicode (TokenizeString go_unicode words_scan x)) o) in P. rewrite (Yields_inj _ _ _ P (Fold_yields _ _ Y)).
  destruct I as [I|[]]. injection I as <- <-. vm_compute. reflexivity.
Qed.
