(** * Property theorem C70 *)

From Verif Require Import Base Utf8 Unicode UnicodeData Token Stream StreamSpec Tokenizer Words Filters Ascii Synonyms ContractionsTable
  FilterSpec SynSpec ChainSpec Sources LineSpec WordsProofs WordLineProofs PropSigilLemmas PropSynLemmas2 PropLineLemmas.

(** [fs]: filters that keep line ends; after them [gs], filters that select tokens. *)
Theorem C70_line_by_line :
  forall (U : unicode) (seg : string -> list string), sane U -> uIsSpace U 44 = false -> seg_ok seg -> breaks_lines seg ->
  forall fs gs, Forall (line_filter U (scan_of seg)) fs -> Forall (selecting U) gs ->
  exists kept : string -> list token,
  (forall e, kept e = [line_token e] \/ kept e = []) /\ (gs = [] -> forall e, kept e = [line_token e]) /\
  forall lines last, (forall a e, In (a, e) lines -> ends_line a e) ->
  exists outs o, Forall2 (fun ae => processed U (scan_of seg) (fs ++ gs) (fst ae)) lines outs /\
    processed U (scan_of seg) (fs ++ gs) last o /\
    processed U (scan_of seg) (fs ++ gs) (joined_lines lines ++ last) (joined_outputs kept lines outs ++ o).
Proof. exact C70_lemma. Qed.
Print Assumptions C70_line_by_line.

(** The word boundary rules of Unicode do break at line ends. *)
Theorem C70_segmentation_breaks : breaks_lines word_segments.
Proof. exact word_segments_break. Qed.
Print Assumptions C70_segmentation_breaks.

(** Distinct is not among these filters: it remembers earlier lines. *)
Theorem C70_Distinct_looks_back : exists a, ends_line a LF /\
  Yields (Distinct (TokenizeString go_unicode words_scan a)) [tok "a"]%string /\
  Yields (Distinct (TokenizeString go_unicode words_scan (a ++ LF ++ a))) [tok "a"%string; line_token LF].
Proof. exact C70_distinct_lemma. Qed.
Print Assumptions C70_Distinct_looks_back.

(** The hypotheses can be met, by all the filters of the library at once. *)
Example C70_hypotheses : sane go_unicode /\ uIsSpace go_unicode 44 = false /\ seg_ok word_segments /\
  exists b, Forall (line_filter go_unicode words_scan)
    [Contractions go_unicode words_scan contraction_mappings; Fold go_unicode; SynFilter go_unicode None b; Handles go_unicode; Hashtags go_unicode] /\
  Forall (selecting go_unicode) [Lemmas].
Proof. exact C70_hypotheses_lemma. Qed.

Example C70_example :
  match build go_unicode words_scan 40 (mkConfig [("ruby on rails", "ruby-on-rails")]%string true [32%N]) with
  | Ret (None, b) => match ToSlice 60 (ApplyFilters [Contractions go_unicode words_scan contraction_mappings; SynFilter go_unicode None b; Handles go_unicode]
      (TokenizeString go_unicode words_scan ("ruby on" ++ LF ++ "rails @" ++ CR ++ LF ++ "x don't")%string)) with
    | Ret ((l, e), _) => (map tvalue l, e) | _ => ([], None) end
  | _ => ([], None) end
  = (["ruby"; " "; "on"; LF; "rails"; " "; "@"; (CR ++ LF); "x"; " "; "do"; " "; "not"]%string, None).
Proof. vm_compute. reflexivity. Qed.
