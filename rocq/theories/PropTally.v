(** * Property theorems C109: the number printed with -count *)

From Coq Require Import ZArith.
From Verif Require Import Base Utf8 Unicode UnicodeData Token Stream StreamSpec Tokenizer Words Filters Ascii Synonyms ContractionsTable
  FilterSpec SynSpec ChainSpec Cli CliSpec Process ProcessSpec ListSpec LineSpec OutputSpec PipeSpec PropPipeLemmas PropTallyLemmas.
Local Open Scope string_scope.

(** The number is not that of the lines printed with -lines: a line end is a token, printed as two lines. *)
Theorem C109_refuted : ~ (forall c a s d n x, Forall (fun x => In x plain_flags) a ->
  prints c (a ++ ["-count"]) s (d ++ LF) -> decimal n d -> prints c (a ++ ["-lines"]) s x -> line_feeds x = n).
Proof. exact C109_refutation. Qed.
Print Assumptions C109_refuted.

(** It is the number of tokens that the filters leave. *)
Theorem C109_tokens : forall c a, Forall (fun x => In x plain_flags) a ->
  forall s o, processed go_unicode words_scan (map (filter_of_flag c) a) s o ->
  exists d, decimal (List.length o) d /\ prints c (a ++ ["-count"]) s (d ++ LF).
Proof. exact C109_count_lemma. Qed.
Print Assumptions C109_tokens.

(** So it is with all arguments among which is -count, and not -html, -file, -out or -version; also with stemmers. *)
Theorem C109_any_flags : forall c args set fl, flag_Parse args = Some set -> text_command args -> get_bool "count" set = true ->
  filters_of (Fold go_unicode) (Contractions go_unicode words_scan contraction_mappings) (SynFilter go_unicode None (tags c)) (fun lang => Stemmer go_unicode (stemmer c lang))
    (get_string "lang" "english" set) args fl ->
  forall s o, processed go_unicode words_scan fl s o -> exists d, decimal (List.length o) d /\ prints c args s (d ++ LF).
Proof. exact C109_any_flags_lemma. Qed.
Print Assumptions C109_any_flags.

Example C109_any_flags_hypotheses : text_command ["-count"; "-stem"; "-lang=french"] /\ exists set, flag_Parse ["-count"; "-stem"; "-lang=french"] = Some set /\ get_bool "count" set = true /\
  filters_of (Fold go_unicode) (Contractions go_unicode words_scan contraction_mappings) (SynFilter go_unicode None (tags no_tags)) (fun lang => Stemmer go_unicode (stemmer no_tags lang))
    (get_string "lang" "english" set) ["-count"; "-stem"; "-lang=french"] [Stemmer go_unicode (stemmer no_tags "french")].
Proof. exact stem_count_command. Qed.

(** It is that of the lines exactly if no token is a line end; it is never more, nor less than half.
    With -stack, if no name of a tag contains a line feed. *)
Theorem C109_exactly_partial : forall c a, Forall (fun x => In x plain_flags) a ->
  (In "-stack" a -> line_output go_unicode words_scan (SynFilter go_unicode None (tags c))) ->
  forall s o, processed go_unicode words_scan (map (filter_of_flag c) a) s o ->
  exists d n x, prints c (a ++ ["-count"]) s (d ++ LF) /\ decimal n d /\ prints c (a ++ ["-lines"]) s x /\
    n <= line_feeds x <= 2 * n /\ (line_feeds x = n <-> forall t, In t o -> ~ line_end (tvalue t)).
Proof. exact C109_exactly_lemma. Qed.
Print Assumptions C109_exactly_partial.

(** So with all arguments that stand for the same filters, one list with -count and one with -lines, as long as stemmers and the names of tags make no line feeds. *)
Theorem C109_any_exactly_partial : forall c args1 set1 args2 set2 fl, flag_Parse args1 = Some set1 -> text_command args1 -> get_bool "count" set1 = true ->
  flag_Parse args2 = Some set2 -> text_command args2 -> get_bool "lines" set2 = true -> get_bool "count" set2 = false ->
  filters_of (Fold go_unicode) (Contractions go_unicode words_scan contraction_mappings) (SynFilter go_unicode None (tags c)) (fun lang => Stemmer go_unicode (stemmer c lang))
    (get_string "lang" "english" set1) args1 fl ->
  filters_of (Fold go_unicode) (Contractions go_unicode words_scan contraction_mappings) (SynFilter go_unicode None (tags c)) (fun lang => Stemmer go_unicode (stemmer c lang))
    (get_string "lang" "english" set2) args2 fl ->
  Forall (line_output go_unicode words_scan) fl ->
  forall s o, processed go_unicode words_scan fl s o ->
  exists d n x, prints c args1 s (d ++ LF) /\ decimal n d /\ prints c args2 s x /\
    n <= line_feeds x <= 2 * n /\ (line_feeds x = n <-> forall t, In t o -> ~ line_end (tvalue t)).
Proof. exact C109_any_exactly_lemma. Qed.
Print Assumptions C109_any_exactly_partial.

(** With -distinct it is the number of different texts of tokens. *)
Theorem C109_distinct : forall c a, Forall (fun x => In x plain_flags) a ->
  forall s o, processed go_unicode words_scan (map (filter_of_flag c) a) s o ->
  exists d, decimal (List.length (nodup string_dec (map tvalue o))) d /\ prints c (a ++ ["-distinct"; "-count"]) s (d ++ LF).
Proof. exact C109_distinct_lemma. Qed.
Print Assumptions C109_distinct.

(** -lines makes no difference to -count, before or after it. *)
Theorem C109_with_lines : forall c a, Forall (fun x => In x plain_flags) a -> forall s x,
  (prints c (a ++ ["-count"; "-lines"]) s x <-> prints c (a ++ ["-count"]) s x) /\ (prints c (a ++ ["-lines"; "-count"]) s x <-> prints c (a ++ ["-count"]) s x).
Proof. exact C109_lines_lemma. Qed.
Print Assumptions C109_with_lines.

Example C109_example : exists o, processed go_unicode words_scan (map (filter_of_flag no_tags) []) "a b a" o /\ map tvalue o = ["a"; " "; "b"; " "; "a"] /\
  prints no_tags ["-count"] "a b a" ("5" ++ LF) /\ prints no_tags ["-distinct"; "-count"] "a b a" ("3" ++ LF).
Proof. exact C109_example_lemma. Qed.
