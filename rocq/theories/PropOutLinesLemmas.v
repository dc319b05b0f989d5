(** * Proofs about what the command prints with -lines (C78) *)

From Coq Require Import ZArith Lia.
From Verif Require Import Base Utf8 Unicode UnicodeData Token Stream StreamSpec Tokenizer Words Filters Ascii Synonyms ContractionsTable
  FilterSpec SynSpec ChainSpec Cli CliSpec Process ProcessSpec ListSpec LineSpec OutputSpec PipeSpec StreamProofs TokenProofs FilterProofs WordsProofs WordLineProofs PropSynLemmas2 PropOutputLemmas PropCliLemmas PropCliLemmas2 PropTextLemmas PropPipeLemmas.
Local Open Scope string_scope.

Lemma lines_shown c a : Forall (fun x => In x plain_flags) a -> forall s x, prints c (a ++ ["-lines"]) s x <->
  exists l, Yields (ApplyFilters (map (filter_of_flag c) a) (TokenizeString go_unicode words_scan s)) l /\ x = listing true l.
Proof.
  intros H s x. destruct (flags_first a H ["-lines"] [("lines", VBool true)] eq_refl) as (set & P & B & S).
  rewrite (prints_shows c (a ++ ["-lines"]) set (map (filter_of_flag c) a) s x P).
  - unfold shows. rewrite !B by (cbn; intuition discriminate). reflexivity.
  - rewrite B by (cbn; intuition discriminate). reflexivity.
  - rewrite B by (cbn; intuition discriminate). reflexivity.
  - rewrite S by (cbn; intuition discriminate). reflexivity.
  - rewrite S by (cbn; intuition discriminate). reflexivity.
  - apply flags_language; [exact H|]. intros (I & _). cbn in I. intuition discriminate.
  - rewrite <- (app_nil_r (map _ a)). apply flags_filters; [exact H|]. apply FO_other; [cbn; intuition discriminate|constructor].
Qed.

Lemma flag_line_output c a : Forall (fun x => In x plain_flags) a -> (In "-stack" a -> line_output go_unicode words_scan (SynFilter go_unicode None (tags c))) ->
  Forall (line_output go_unicode words_scan) (map (filter_of_flag c) a).
Proof.
  intros H T. apply Forall_forall. intros F I. apply in_map_iff in I as (x & <- & I). rewrite Forall_forall in H. specialize (H _ I). cbn in H.
  destruct H as [<-|[<-|[<-|[<-|[<-|[]]]]]]; cbn.
  - apply LO_fold.
  - apply LO_expand. intros k v J. split; [reflexivity|exact (contractions_no_feed k v J)].
  - apply LO_select. constructor.
  - apply LO_distinct.
  - now apply T.
Qed.

Lemma C78_command_lemma c a : Forall (fun x => In x plain_flags) a -> (In "-stack" a -> line_output go_unicode words_scan (SynFilter go_unicode None (tags c))) ->
  forall s1 s2 o1 o2, processed go_unicode words_scan (map (filter_of_flag c) a) s1 o1 -> processed go_unicode words_scan (map (filter_of_flag c) a) s2 o2 ->
  exists x1 x2, prints c (a ++ ["-lines"]) s1 x1 /\ prints c (a ++ ["-lines"]) s2 x2 /\ (x1 = x2 <-> map tvalue o1 = map tvalue o2).
Proof.
  intros H T s1 s2 o1 o2 P1 P2. exists (listing true o1), (listing true o2).
  split; [apply lines_shown; eauto|]. split; [apply lines_shown; eauto|].
  destruct (C78_text_lemma go_unicode word_segments word_segments_ok word_segments_break go_comma _ (flag_line_output c a H T) s1 s2) as (l1 & l2 & Q1 & Q2 & E).
  rewrite (Yields_inj _ _ _ P1 Q1), (Yields_inj _ _ _ P2 Q2). exact E.
Qed.

Lemma C78_command_count_lemma c a : Forall (fun x => In x plain_flags) a -> (In "-stack" a -> line_output go_unicode words_scan (SynFilter go_unicode None (tags c))) ->
  forall s o, processed go_unicode words_scan (map (filter_of_flag c) a) s o ->
  exists x ends, prints c (a ++ ["-lines"]) s x /\ Subseq ends o /\ (forall t, In t o -> line_end (tvalue t) <-> In t ends) /\
    line_feeds x = (List.length o + List.length ends)%nat.
Proof.
  intros H T s o P.
  destruct (C78_wc_lemma go_unicode word_segments word_segments_ok word_segments_break go_comma _ (flag_line_output c a H T) s) as (l & ends & Q & E).
  rewrite <- (Yields_inj _ _ _ P Q) in E. exists (listing true o), ends. split; [apply lines_shown; eauto|exact E].
Qed.

Lemma C78_command_example_lemma : exists o, processed go_unicode words_scan (map (filter_of_flag no_tags) []) ("a b" ++ LF) o /\
  map tvalue o = ["a"; " "; "b"; LF] /\ prints no_tags ["-lines"] ("a b" ++ LF) ("a" ++ LF ++ " " ++ LF ++ "b" ++ LF ++ LF ++ LF).
Proof.
  exists (map (piece_token go_unicode) (word_segments ("a b" ++ LF))). split; [apply tokens_of|]. split; [vm_compute; reflexivity|].
  apply (lines_shown no_tags [] (Forall_nil _)). exists (map (piece_token go_unicode) (word_segments ("a b" ++ LF))). split; [apply tokens_of|vm_compute; reflexivity].
Qed.

Lemma any_flags c args set fl : flag_Parse args = Some set -> text_command args ->
  filters_of (Fold go_unicode) (Contractions go_unicode words_scan contraction_mappings) (SynFilter go_unicode None (tags c)) (fun lang => Stemmer go_unicode (stemmer c lang))
    (get_string "lang" "english" set) args fl ->
  forall s o, processed go_unicode words_scan fl s o -> forall x, printed (get_bool "count" set) (get_bool "lines" set) o x -> prints c args s x.
Proof.
  intros P (set' & P' & V & Ht & Fi & Ou & Ul) Fl s o Y x X. rewrite P in P'. injection P' as <-.
  apply (shows_prints c args set fl s x P V Ht Fi Ou Ul Fl). exists o. auto.
Qed.

Lemma C78_any_flags_lemma c args set fl : flag_Parse args = Some set -> text_command args -> get_bool "lines" set = true -> get_bool "count" set = false ->
  filters_of (Fold go_unicode) (Contractions go_unicode words_scan contraction_mappings) (SynFilter go_unicode None (tags c)) (fun lang => Stemmer go_unicode (stemmer c lang))
    (get_string "lang" "english" set) args fl ->
  Forall (line_output go_unicode words_scan) fl ->
  forall s1 s2 o1 o2, processed go_unicode words_scan fl s1 o1 -> processed go_unicode words_scan fl s2 o2 ->
  exists x1 x2, prints c args s1 x1 /\ prints c args s2 x2 /\ (x1 = x2 <-> map tvalue o1 = map tvalue o2).
Proof.
  intros P T Ln Ct Fl LO s1 s2 o1 o2 P1 P2. exists (listing true o1), (listing true o2).
  split; [eapply any_flags; try eassumption; rewrite Ln, Ct; reflexivity|]. split; [eapply any_flags; try eassumption; rewrite Ln, Ct; reflexivity|].
  destruct (C78_text_lemma go_unicode word_segments word_segments_ok word_segments_break go_comma _ LO s1 s2) as (l1 & l2 & Q1 & Q2 & E).
  rewrite (Yields_inj _ _ _ P1 Q1), (Yields_inj _ _ _ P2 Q2). exact E.
Qed.

Lemma stem_lines_command : text_command ["-stem"; "-lang"; "french"; "-lines"] /\ exists set, flag_Parse ["-stem"; "-lang"; "french"; "-lines"] = Some set /\
  get_bool "lines" set = true /\ get_bool "count" set = false /\
  filters_of (Fold go_unicode) (Contractions go_unicode words_scan contraction_mappings) (SynFilter go_unicode None (tags no_tags)) (fun lang => Stemmer go_unicode (stemmer no_tags lang))
    (get_string "lang" "english" set) ["-stem"; "-lang"; "french"; "-lines"] [Stemmer go_unicode (stemmer no_tags "french")] /\
  Forall (line_output go_unicode words_scan) [Stemmer go_unicode (stemmer no_tags "french")].
Proof.
  split.
  - eexists. split; [reflexivity|]. repeat (split; [reflexivity|]). intros (_ & _ & N). apply N. cbn. auto.
  - eexists. split; [reflexivity|]. split; [reflexivity|]. split; [reflexivity|]. split.
    + apply FO_filter; [apply SF_stem; cbn; auto|]. repeat (apply FO_other; [cbn; intuition discriminate|]). constructor.
    + constructor; [apply LO_stem; auto|constructor].
Qed.
