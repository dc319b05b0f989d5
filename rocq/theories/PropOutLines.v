(** * Property theorems C78, of the command itself *)

From Coq Require Import ZArith.
From Verif Require Import Base Utf8 Unicode UnicodeData Token Stream StreamSpec Tokenizer Words Filters Ascii Synonyms ContractionsTable
  FilterSpec SynSpec ChainSpec Cli CliSpec Process ProcessSpec ListSpec LineSpec OutputSpec PipeSpec PropPipeLemmas PropOutLinesLemmas.
Local Open Scope string_scope.

(** What [jargon -lines] prints for two texts, with any of the flags for filters other than stemmers, is the same exactly if the tokens are.
    With -stack, if no name of a tag contains a line feed. *)
Theorem C78_command_partial : forall c a, Forall (fun x => In x plain_flags) a ->
  (In "-stack" a -> line_output go_unicode words_scan (SynFilter go_unicode None (tags c))) ->
  forall s1 s2 o1 o2, processed go_unicode words_scan (map (filter_of_flag c) a) s1 o1 -> processed go_unicode words_scan (map (filter_of_flag c) a) s2 o2 ->
  exists x1 x2, prints c (a ++ ["-lines"]) s1 x1 /\ prints c (a ++ ["-lines"]) s2 x2 /\ (x1 = x2 <-> map tvalue o1 = map tvalue o2).
Proof. exact C78_command_lemma. Qed.
Print Assumptions C78_command_partial.

(** It prints as many lines as there are tokens, if each line end counts twice. *)
Theorem C78_command_count_partial : forall c a, Forall (fun x => In x plain_flags) a ->
  (In "-stack" a -> line_output go_unicode words_scan (SynFilter go_unicode None (tags c))) ->
  forall s o, processed go_unicode words_scan (map (filter_of_flag c) a) s o ->
  exists x ends, prints c (a ++ ["-lines"]) s x /\ Subseq ends o /\ (forall t, In t o -> line_end (tvalue t) <-> In t ends) /\
    line_feeds x = (List.length o + List.length ends)%nat.
Proof. exact C78_command_count_lemma. Qed.
Print Assumptions C78_command_count_partial.

(** The same for all arguments with -lines and without -count, -html, -file, -out and -version, so also with stemmers: what is printed for two texts is the same exactly
    if the tokens are, if the stemmers and the names of tags make no line feeds. *)
Theorem C78_any_flags_partial : forall c args set fl, flag_Parse args = Some set -> text_command args -> get_bool "lines" set = true -> get_bool "count" set = false ->
  filters_of (Fold go_unicode) (Contractions go_unicode words_scan contraction_mappings) (SynFilter go_unicode None (tags c)) (fun lang => Stemmer go_unicode (stemmer c lang))
    (get_string "lang" "english" set) args fl ->
  Forall (line_output go_unicode words_scan) fl ->
  forall s1 s2 o1 o2, processed go_unicode words_scan fl s1 o1 -> processed go_unicode words_scan fl s2 o2 ->
  exists x1 x2, prints c args s1 x1 /\ prints c args s2 x2 /\ (x1 = x2 <-> map tvalue o1 = map tvalue o2).
Proof. exact C78_any_flags_lemma. Qed.
Print Assumptions C78_any_flags_partial.

Example C78_any_flags_hypotheses : text_command ["-stem"; "-lang"; "french"; "-lines"] /\ exists set, flag_Parse ["-stem"; "-lang"; "french"; "-lines"] = Some set /\
  get_bool "lines" set = true /\ get_bool "count" set = false /\
  filters_of (Fold go_unicode) (Contractions go_unicode words_scan contraction_mappings) (SynFilter go_unicode None (tags no_tags)) (fun lang => Stemmer go_unicode (stemmer no_tags lang))
    (get_string "lang" "english" set) ["-stem"; "-lang"; "french"; "-lines"] [Stemmer go_unicode (stemmer no_tags "french")] /\
  Forall (line_output go_unicode words_scan) [Stemmer go_unicode (stemmer no_tags "french")].
Proof. exact stem_lines_command. Qed.

Example C78_command_example : exists o, processed go_unicode words_scan (map (filter_of_flag no_tags) []) ("a b" ++ LF) o /\
  map tvalue o = ["a"; " "; "b"; LF] /\ prints no_tags ["-lines"] ("a b" ++ LF) ("a" ++ LF ++ " " ++ LF ++ "b" ++ LF ++ LF ++ LF).
Proof. exact C78_command_example_lemma. Qed.
