(** * Property theorems C10 - C12, C30: chains of filters *)

From Verif Require Import Base Utf8 Unicode UnicodeData Token Stream StreamSpec ListSpec Tokenizer Words Filters Ascii
  ContractionsTable Synonyms FilterSpec SynSpec ChainSpec Sources WordsProofs ChainProofs PropSynLemmas2.

(** The filters of the library are listed in ChainSpec.v, [library_filter]. *)

Theorem C10_exhaustion_is_permanent :
  forall (U : unicode) (scan : oracle), scanner_ok scan -> uIsSpace U 44 = false ->
  forall fs, Forall (library_filter U scan) fs -> forall s l, Yields s l ->
  exists o s', Emits (ApplyFilters fs s) o None s' /\ Quiet s'.
Proof. exact C10_lemma. Qed.
Print Assumptions C10_exhaustion_is_permanent.

Example C10_example :
  match ToSlice 60 (ApplyFilters [Contractions go_unicode words_scan contraction_mappings; Fold go_unicode; Handles go_unicode; Words]
     (source [tok "don't"; tok " "; tok "@"; tok "b"] None)) with
  | Ret ((l, e), s) => match Next 60 s with
    | Ret (r1, s1) => match Next 60 s1 with Ret (r2, _) => (map tvalue l, e, r1, r2) | _ => ([], None, (None, None), (None, None)) end
    | _ => ([], None, (None, None), (None, None)) end
  | _ => ([], None, (None, None), (None, None)) end = (["do"; "not"; "@b"]%string, None, (None, None), (None, None)).
Proof. vm_compute. reflexivity. Qed.

Theorem C11_errors_pass :
  forall (U : unicode) (scan : oracle), scanner_ok scan -> uIsSpace U 44 = false ->
  forall fs, Forall (library_filter U scan) fs -> forall s l e, Fails s l e ->
  (exists o, Fails (ApplyFilters fs s) o e) /\
  (exists s', Returns (fun n => ToSlice n (ApplyFilters fs s)) (([], Some e), s')) /\
  (exists s', Returns (fun n => StreamString n (ApplyFilters fs s)) ((EmptyString, Some e), s')) /\
  (exists c s', Returns (fun n => Count n (ApplyFilters fs s)) ((c, Some e), s')) /\
  (forall w acc log ws, good_writer w acc log -> (forall ws v m we ws', wwrite w ws v <> ((m, Some we), ws')) ->
     exists n ws' s', Returns (fun fuel => WriteTo w fuel ws (ApplyFilters fs s)) ((n, Some e), (ws', s'))) /\
  (forall l', ~ Yields (ApplyFilters fs s) l').
Proof. exact C11_lemma. Qed.
Print Assumptions C11_errors_pass.

Example C11_example :
  match ToSlice 60 (ApplyFilters [Stopwords go_unicode ["the"%string] true; Fold go_unicode; Hashtags go_unicode; Distinct]
     (source [tok "the"; tok "#"] (Some "read failed"%string))) with
  | Ret ((l, e), _) => (l, e) | _ => ([], None) end = ([], Some "read failed"%string).
Proof. vm_compute. reflexivity. Qed.

Theorem C12_pipelines_terminate :
  forall (U : unicode) (scan : oracle), scanner_ok scan -> uIsSpace U 44 = false ->
  forall fs, Forall (library_filter U scan) fs -> forall s l, Yields s l ->
  exists o, Yields (ApplyFilters fs s) o /\
  (exists s', Returns (fun n => ToSlice n (ApplyFilters fs s)) ((o, None), s')) /\
  (exists s', Returns (fun n => StreamString n (ApplyFilters fs s)) ((text o, None), s')) /\
  (exists s', Returns (fun n => Count n (ApplyFilters fs s)) ((length o, None), s')).
Proof. exact C12_lemma. Qed.
Print Assumptions C12_pipelines_terminate.

Example C12_example :
  Forall (library_filter go_unicode words_scan)
    [Contractions go_unicode words_scan contraction_mappings; Fold go_unicode; Handles go_unicode; Words].
Proof.
  constructor; [apply LF_plain, PF_expand; reflexivity|]. constructor; [apply LF_plain, PF_fold|].
  constructor; [apply LF_handles|]. constructor; [apply LF_plain, PF_words|constructor].
Qed.

(** ** C30 Lemma marks *)

(** C30 is false: "not" in place of "don't" is not a lemma. *)
Theorem C30_refuted :
  ~ (forall U scan, scanner_ok scan -> replaced_are_lemmas (Contractions U scan contraction_mappings)).
Proof. exact C30_refutation. Qed.
Print Assumptions C30_refuted.

(** It holds for the other filters that replace tokens. *)
Theorem C30_other_filters_partial :
  forall U scan, scanner_ok scan ->
  replaced_are_lemmas (Fold U) /\
  (forall stem, (forall v, stem v true = EmptyString -> v = EmptyString) -> replaced_are_lemmas (Stemmer U stem)) /\
  (forall isNormal normalize, (forall v, isNormal v = false -> normalize v <> EmptyString) ->
     replaced_are_lemmas (Norm U isNormal normalize)) /\
  (forall sigil legal, sigil <> EmptyString -> replaced_are_lemmas (Sigil U sigil legal)) /\
  (uIsSpace U 44 = false -> forall ms ic ig D b, dictionary_of (key_tokens U scan) ms D -> built_from U scan ms ic ig b ->
     replaced_are_lemmas (SynFilter U None b)).
Proof. exact C30_partial_lemma. Qed.
Print Assumptions C30_other_filters_partial.

Example C30_witness :
  match ToSlice 60 (Contractions go_unicode words_scan contraction_mappings (source [tok "don't"] None)) with
  | Ret ((l, e), _) => l | _ => [] end = [tok "do"; tok " "; tok "not"] /\
  match ToSlice 60 (Lemmas (Contractions go_unicode words_scan contraction_mappings (source [tok "don't"] None))) with
  | Ret ((l, e), _) => l | _ => [tok "x"] end = [].
Proof. vm_compute. split; reflexivity. Qed.
