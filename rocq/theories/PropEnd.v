(** * Property theorem C105: line ends of Windows and of Unix *)

From Verif Require Import Base Utf8 Unicode UnicodeData Token Stream StreamSpec Tokenizer Words Filters Ascii Synonyms ContractionsTable
  FilterSpec SynSpec ChainSpec Sources LineSpec EndSpec WordsProofs PropLineLemmas PropEndLemmas.

(** [fs]: filters that keep line ends (those of C70); after them, possibly, Words and Lemmas. *)
Theorem C105_line_ends :
  forall fs gs v, Forall (line_filter go_unicode words_scan) fs -> Forall (fun G => G = Stream.Words \/ G = Lemmas) gs -> no_stray_return v ->
  exists o o', processed go_unicode words_scan (fs ++ gs) v o /\ processed go_unicode words_scan (fs ++ gs) (unix_ends v) o' /\ Forall2 same_but_end o o'.
Proof. exact C105_lemma. Qed.
Print Assumptions C105_line_ends.

(** Before a carriage return of its own, CR LF must not be replaced: CR and the new LF would be one line end. *)
Theorem C105_stray_return :
  forall o o', processed go_unicode words_scan [] (CR ++ CR ++ LF) o -> processed go_unicode words_scan [] (unix_ends (CR ++ CR ++ LF)) o' ->
  length o = 2 /\ length o' = 1.
Proof. exact C105_stray. Qed.
Print Assumptions C105_stray_return.

Example C105_example_hypotheses : no_stray_return ("ruby" ++ CR ++ LF ++ "x" ++ LF ++ CR ++ "y")%string /\
  unix_ends ("ruby" ++ CR ++ LF ++ "x" ++ LF ++ CR ++ "y") = ("ruby" ++ LF ++ "x" ++ LF ++ CR ++ "y")%string /\
  exists b, Forall (line_filter go_unicode words_scan)
    [Contractions go_unicode words_scan contraction_mappings; Fold go_unicode; SynFilter go_unicode None b; Handles go_unicode; Hashtags go_unicode].
Proof. exact C105_hypotheses. Qed.

Example C105_example :
  match ToSlice 60 (ApplyFilters [Contractions go_unicode words_scan contraction_mappings; Handles go_unicode; Fold go_unicode]
      (TokenizeString go_unicode words_scan ("@a don't" ++ CR ++ LF ++ "x")%string)) with
    | Ret ((l, e), _) => (map tvalue l, e) | _ => ([], None) end
  = (["@a"; " "; "do"; " "; "not"; (CR ++ LF); "x"]%string, None).
Proof. vm_compute. reflexivity. Qed.
