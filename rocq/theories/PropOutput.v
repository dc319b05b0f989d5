(** * Property theorem C78 *)

From Verif Require Import Base Utf8 Unicode UnicodeData Token Stream StreamSpec Tokenizer Words Html Filters Ascii Synonyms ContractionsTable
  FilterSpec SynSpec ChainSpec ListSpec CliSpec Sources LineSpec OutputSpec WordsProofs WordLineProofs PropSynLemmas2 PropOutputLemmas.

(** The output of jargon -lines tells the tokens: false for two HTML pages and Distinct. After a script, texts are not divided into words (C16):
    one page has the texts "a" and "b", separated by a tag that Distinct leaves out, the other the text "a", line feed, "b". *)
Theorem C78_refuted : exists p1 p2 o1 o2,
  Yields (Distinct (TokenizeHTML go_unicode words_scan p1)) o1 /\ Yields (Distinct (TokenizeHTML go_unicode words_scan p2)) o2 /\
  listing true o1 = listing true o2 /\ map tvalue o1 <> map tvalue o2.
Proof. exact C78_refutation. Qed.
Print Assumptions C78_refuted.

(** It does if every token is a line end, or is not empty and has no line feed. *)
Theorem C78_tokens_partial : forall l1 l2, Forall (fun t => tvalue t <> EmptyString /\ one_line (tvalue t)) l1 ->
  Forall (fun t => tvalue t <> EmptyString /\ one_line (tvalue t)) l2 ->
  listing true l1 = listing true l2 -> map tvalue l1 = map tvalue l2.
Proof. exact C78_list_lemma. Qed.
Print Assumptions C78_tokens_partial.

(** So it does for texts, with any filters of the command line. *)
Theorem C78_texts_partial :
  forall (U : unicode) (seg : string -> list string), seg_ok seg -> breaks_lines seg -> uIsSpace U 44 = false ->
  forall fs, Forall (line_output U (scan_of seg)) fs -> forall s1 s2, exists o1 o2,
  processed U (scan_of seg) fs s1 o1 /\ processed U (scan_of seg) fs s2 o2 /\ (listing true o1 = listing true o2 <-> map tvalue o1 = map tvalue o2).
Proof. exact C78_text_lemma. Qed.
Print Assumptions C78_texts_partial.

(** The number of lines is the number of tokens, if each line end counts twice. *)
Theorem C78_line_count_partial :
  forall (U : unicode) (seg : string -> list string), seg_ok seg -> breaks_lines seg -> uIsSpace U 44 = false ->
  forall fs, Forall (line_output U (scan_of seg)) fs -> forall s, exists o ends,
  processed U (scan_of seg) fs s o /\ Subseq ends o /\ (forall t, In t o -> line_end (tvalue t) <-> In t ends) /\
  line_feeds (listing true o) = (length o + length ends)%nat.
Proof. exact C78_wc_lemma. Qed.
Print Assumptions C78_line_count_partial.

Example C78_hypotheses : uIsSpace go_unicode 44 = false /\ seg_ok word_segments /\ breaks_lines word_segments /\
  exists b, Forall (line_output go_unicode words_scan)
    [Contractions go_unicode words_scan contraction_mappings; Fold go_unicode; SynFilter go_unicode None b; Stemmer go_unicode (fun v _ => v); Lemmas; Distinct].
Proof. exact C78_hypotheses_lemma. Qed.

Example C78_example :
  listing true [tok "a"; tok LF; tok "b"] = ("a" ++ LF ++ LF ++ LF ++ "b" ++ LF)%string /\
  line_feeds (listing true [tok "a"; tok LF; tok "b"]) = 4 /\ line_end LF /\ one_line "a" /\ ~ one_line ("a" ++ LF)%string.
Proof.
  split; [reflexivity|]. split; [reflexivity|]. split; [now left|]. split; [right; cbn; intros [H|[]]; discriminate|].
  intros [[H|H]|H]; [discriminate|discriminate|]. apply H. right. now left.
Qed.
