(** * Proofs about the number printed with -count (C109) *)

From Coq Require Import ZArith Lia.
From Verif Require Import Base Utf8 Unicode UnicodeData Token Stream StreamSpec Tokenizer Words Filters Ascii Synonyms ContractionsTable
  FilterSpec SynSpec ChainSpec Cli CliSpec Process ProcessSpec ListSpec LineSpec OutputSpec PipeSpec StreamProofs TokenProofs FilterProofs WordsProofs WordLineProofs ChainProofs CliProofs
  PropSynLemmas2 PropOutputLemmas PropCliLemmas PropCliLemmas2 PropTextLemmas PropPipeLemmas PropOutLinesLemmas.
Local Open Scope string_scope.

Local Notation FO c := (filters_of (Fold go_unicode) (Contractions go_unicode words_scan contraction_mappings) (SynFilter go_unicode None (tags c)) (fun lang => Stemmer go_unicode (stemmer c lang))).

(** The arguments after the filters. *)
Lemma tally_shown c a r set0 : Forall (fun x => In x plain_flags) a -> In (r, set0) [(["-count"], [("count", VBool true)]);
    (["-count"; "-lines"], [("count", VBool true); ("lines", VBool true)]); (["-lines"; "-count"], [("lines", VBool true); ("count", VBool true)])] ->
  forall s x, prints c (a ++ r) s x <->
  exists l, Yields (ApplyFilters (map (filter_of_flag c) a) (TokenizeString go_unicode words_scan s)) l /\ exists d, decimal (List.length l) d /\ x = d ++ LF.
Proof.
  intros H R s x.
  assert (Q : flag_Parse r = Some set0 /\ get_bool "count" set0 = true /\ get_bool "version" set0 = false /\ get_bool "html" set0 = false /\ get_string "file" "" set0 = "" /\
    get_string "out" "" set0 = "" /\ ~ In "-stem" r /\ forall lang, FO c lang r []).
  { cbn in R. destruct R as [E|[E|[E|[]]]]; injection E as <- <-; repeat (split; [reflexivity|]); (split; [cbn; intuition discriminate|]); intros lang;
    repeat (apply FO_other; [cbn; intuition discriminate|]); constructor. }
  destruct Q as (Q1 & Q2 & Q3 & Q4 & Q5 & Q6 & Q7 & Q8).
  destruct (flags_first a H r set0 Q1) as (set & P & B & S).
  rewrite (prints_shows c (a ++ r) set (map (filter_of_flag c) a) s x P).
  - unfold shows. rewrite !B by (cbn; intuition discriminate). rewrite Q2. reflexivity.
  - rewrite B by (cbn; intuition discriminate). exact Q3.
  - rewrite B by (cbn; intuition discriminate). exact Q4.
  - rewrite S by (cbn; intuition discriminate). exact Q5.
  - rewrite S by (cbn; intuition discriminate). exact Q6.
  - apply flags_language; [exact H|]. intros (I & _). exact (Q7 I).
  - rewrite <- (app_nil_r (map _ a)). apply flags_filters; [exact H|apply Q8].
Qed.

Lemma C109_count_lemma c a : Forall (fun x => In x plain_flags) a -> forall s o, processed go_unicode words_scan (map (filter_of_flag c) a) s o ->
  exists d, decimal (List.length o) d /\ prints c (a ++ ["-count"]) s (d ++ LF).
Proof.
  intros H s o P. exists (itoa (List.length o)). split; [apply itoa_decimal|]. eapply tally_shown; [exact H|now left|].
  exists o. split; [exact P|]. exists (itoa (List.length o)). split; [apply itoa_decimal|reflexivity].
Qed.

Lemma C109_lines_lemma c a : Forall (fun x => In x plain_flags) a -> forall s x,
  (prints c (a ++ ["-count"; "-lines"]) s x <-> prints c (a ++ ["-count"]) s x) /\ (prints c (a ++ ["-lines"; "-count"]) s x <-> prints c (a ++ ["-count"]) s x).
Proof.
  intros H s x. split.
  - eapply iff_trans; [eapply tally_shown; [exact H|right; now left]|symmetry; eapply tally_shown; [exact H|now left]].
  - eapply iff_trans; [eapply tally_shown; [exact H|right; right; now left]|symmetry; eapply tally_shown; [exact H|now left]].
Qed.

Lemma ends_number (o ends : list token) : Subseq ends o -> (forall t, In t o -> line_end (tvalue t) <-> In t ends) ->
  (List.length o <= List.length o + List.length ends <= 2 * List.length o)%nat /\
  ((List.length o + List.length ends)%nat = List.length o <-> forall t, In t o -> ~ line_end (tvalue t)).
Proof.
  intros Sb M. assert (L : List.length ends <= List.length o).
  { clear - Sb. induction Sb; cbn; lia. }
  split; [lia|]. split.
  - intros Z t I Le. apply (M t I) in Le. destruct ends; [destruct Le|cbn in Z; lia].
  - intros N. destruct ends as [|t ends]; [cbn; lia|exfalso].
    assert (I : In t o). { clear - Sb. remember (t :: ends) as l eqn:El. revert El. induction Sb; intros El; [discriminate|injection El as -> ->; now left|right; auto]. }
    apply (N t I). apply (M t I). now left.
Qed.

Lemma C109_exactly_lemma c a : Forall (fun x => In x plain_flags) a -> (In "-stack" a -> line_output go_unicode words_scan (SynFilter go_unicode None (tags c))) ->
  forall s o, processed go_unicode words_scan (map (filter_of_flag c) a) s o ->
  exists d n x, prints c (a ++ ["-count"]) s (d ++ LF) /\ decimal n d /\ prints c (a ++ ["-lines"]) s x /\
    n <= line_feeds x <= 2 * n /\ (line_feeds x = n <-> forall t, In t o -> ~ line_end (tvalue t)).
Proof.
  intros H T s o P. destruct (C109_count_lemma c a H s o P) as (d & D & Pd). destruct (C78_command_count_lemma c a H T s o P) as (x & ends & Px & Sb & M & E).
  exists d, (List.length o), x. split; [exact Pd|]. split; [exact D|]. split; [exact Px|]. rewrite E. now apply ends_number.
Qed.

Lemma same_length (l1 l2 : list string) : NoDup l1 -> (forall v, In v l1 <-> In v l2) -> List.length l1 = List.length (nodup string_dec l2).
Proof.
  intros N E. apply Nat.le_antisymm.
  - apply NoDup_incl_length; [exact N|]. intros v I. apply nodup_In, E, I.
  - apply NoDup_incl_length; [apply NoDup_nodup|]. intros v I. apply E. exact (proj1 (nodup_In _ _ _) I).
Qed.

Lemma C109_refutation : ~ (forall c a s d n x, Forall (fun x => In x plain_flags) a -> prints c (a ++ ["-count"]) s (d ++ LF) -> decimal n d -> prints c (a ++ ["-lines"]) s x -> line_feeds x = n).
Proof.
  intros H. set (s := "a" ++ LF). set (o := map (piece_token go_unicode) (word_segments s)).
  assert (P : processed go_unicode words_scan (map (filter_of_flag no_tags) []) s o) by apply tokens_of.
  assert (Q : prints no_tags ([] ++ ["-count"]) s ("2" ++ LF)).
  { eapply tally_shown; [constructor|now left|]. exists o. split; [exact P|]. exists "2". split; [|reflexivity]. exact (itoa_decimal 2). }
  assert (R : prints no_tags ([] ++ ["-lines"]) s ("a" ++ LF ++ LF ++ LF)).
  { apply lines_shown; [constructor|]. exists o. split; [exact P|vm_compute; reflexivity]. }
  specialize (H no_tags [] s "2" 2 _ (Forall_nil _) Q (itoa_decimal 2) R). vm_compute in H. discriminate H.
Qed.

Lemma C109_distinct_lemma c a : Forall (fun x => In x plain_flags) a -> forall s o, processed go_unicode words_scan (map (filter_of_flag c) a) s o ->
  exists d, decimal (List.length (nodup string_dec (map tvalue o))) d /\ prints c (a ++ ["-distinct"; "-count"]) s (d ++ LF).
Proof.
  intros H s o P.
  assert (H' : Forall (fun x => In x plain_flags) (a ++ ["-distinct"])) by (apply Forall_app; split; [exact H|constructor; [cbn; auto 10|constructor]]).
  assert (P' : processed go_unicode words_scan (map (filter_of_flag c) (a ++ ["-distinct"])) s (first_occurrences [] o)).
  { unfold processed. rewrite map_app. unfold ApplyFilters. rewrite fold_left_app. cbn [map fold_left]. apply (Distinct_yields _ _ P). }
  destruct (C109_count_lemma c _ H' s _ P') as (d & D & Q). exists d. rewrite <- app_assoc in Q. split; [|exact Q].
  rewrite <- (same_length (map tvalue (first_occurrences [] o))); [now rewrite map_length|apply first_occ_nodup|].
  intros v. rewrite first_occ_values. cbn. tauto.
Qed.

Lemma C109_example_lemma : exists o, processed go_unicode words_scan (map (filter_of_flag no_tags) []) "a b a" o /\ map tvalue o = ["a"; " "; "b"; " "; "a"] /\
  prints no_tags ["-count"] "a b a" ("5" ++ LF) /\ prints no_tags ["-distinct"; "-count"] "a b a" ("3" ++ LF).
Proof.
  set (o := map (piece_token go_unicode) (word_segments "a b a")).
  assert (P : processed go_unicode words_scan (map (filter_of_flag no_tags) []) "a b a" o) by apply tokens_of.
  exists o. split; [exact P|]. split; [vm_compute; reflexivity|]. split.
  - apply (tally_shown no_tags [] ["-count"] _ (Forall_nil _) (or_introl eq_refl)). exists o. split; [exact P|]. exists "5". split; [exact (itoa_decimal 5)|reflexivity].
  - apply (tally_shown no_tags ["-distinct"] ["-count"] _ ltac:(constructor; [cbn; auto 10|constructor]) (or_introl eq_refl)).
    exists (first_occurrences [] o). split; [apply (Distinct_yields _ _ P)|]. exists "3". split; [exact (itoa_decimal 3)|reflexivity].
Qed.

Lemma C109_any_flags_lemma c args set fl : flag_Parse args = Some set -> text_command args -> get_bool "count" set = true ->
  filters_of (Fold go_unicode) (Contractions go_unicode words_scan contraction_mappings) (SynFilter go_unicode None (tags c)) (fun lang => Stemmer go_unicode (stemmer c lang))
    (get_string "lang" "english" set) args fl ->
  forall s o, processed go_unicode words_scan fl s o -> exists d, decimal (List.length o) d /\ prints c args s (d ++ LF).
Proof.
  intros P T Ct Fl s o Y. exists (itoa (List.length o)). split; [apply itoa_decimal|]. eapply any_flags; try eassumption. rewrite Ct.
  exists (itoa (List.length o)). split; [apply itoa_decimal|reflexivity].
Qed.

Lemma stem_count_command : text_command ["-count"; "-stem"; "-lang=french"] /\ exists set, flag_Parse ["-count"; "-stem"; "-lang=french"] = Some set /\ get_bool "count" set = true /\
  filters_of (Fold go_unicode) (Contractions go_unicode words_scan contraction_mappings) (SynFilter go_unicode None (tags no_tags)) (fun lang => Stemmer go_unicode (stemmer no_tags lang))
    (get_string "lang" "english" set) ["-count"; "-stem"; "-lang=french"] [Stemmer go_unicode (stemmer no_tags "french")].
Proof.
  split.
  - eexists. split; [reflexivity|]. repeat (split; [reflexivity|]). intros (_ & _ & N). apply N. cbn. auto.
  - eexists. split; [reflexivity|]. split; [reflexivity|]. apply FO_other; [cbn; intuition discriminate|]. apply FO_filter; [apply SF_stem; cbn; auto|].
    repeat (apply FO_other; [cbn; intuition discriminate|]). constructor.
Qed.

Lemma C109_any_exactly_lemma : forall c args1 set1 args2 set2 fl, flag_Parse args1 = Some set1 -> text_command args1 -> get_bool "count" set1 = true ->
  flag_Parse args2 = Some set2 -> text_command args2 -> get_bool "lines" set2 = true -> get_bool "count" set2 = false ->
  filters_of (Fold go_unicode) (Contractions go_unicode words_scan contraction_mappings) (SynFilter go_unicode None (tags c)) (fun lang => Stemmer go_unicode (stemmer c lang))
    (get_string "lang" "english" set1) args1 fl ->
  filters_of (Fold go_unicode) (Contractions go_unicode words_scan contraction_mappings) (SynFilter go_unicode None (tags c)) (fun lang => Stemmer go_unicode (stemmer c lang))
    (get_string "lang" "english" set2) args2 fl ->
  Forall (line_output go_unicode words_scan) fl ->
  forall s o, processed go_unicode words_scan fl s o ->
  exists d n x, prints c args1 s (d ++ LF) /\ decimal n d /\ prints c args2 s x /\
    n <= line_feeds x <= 2 * n /\ (line_feeds x = n <-> forall t, In t o -> ~ line_end (tvalue t)).
Proof.
  intros c args1 set1 args2 set2 fl P1 T1 C1 P2 T2 L2 C2 F1 F2 LO s o P.
  destruct (C109_any_flags_lemma c args1 set1 fl P1 T1 C1 F1 s o P) as (d & D & Pd).
  destruct (C78_wc_lemma go_unicode word_segments word_segments_ok word_segments_break go_comma _ LO s) as (l & ends & Q & Sb & M & E).
  rewrite <- (Yields_inj _ _ _ P Q) in *. exists d, (List.length o), (listing true o). split; [exact Pd|]. split; [exact D|].
  split; [eapply any_flags; [exact P2|exact T2|exact F2|exact P|]; rewrite L2, C2; reflexivity|]. rewrite E. now apply ends_number.
Qed.
