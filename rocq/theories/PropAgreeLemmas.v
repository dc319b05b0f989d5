(** * Proofs about the web service beside the command line tool (C106) *)

From Coq Require Import ZArith Lia.
From Verif Require Import Base Utf8 Unicode UnicodeData Token Stream StreamSpec Tokenizer Words Html Filters Ascii Trie Synonyms ContractionsTable
  FilterSpec SynSpec ChainSpec Cli CliSpec Process ProcessSpec Web WebSpec PipeSpec AgreeSpec ScannerProofs StreamProofs TokenProofs WordsProofs StringProofs ChainProofs
  PropTokenizerLemmas PropSynLemmas2 PropSynLemmas3 PropCliLemmas PropCliLemmas2 PropProcessLemmas PropRetextLemmas PropWebLemmas PropPipeLemmas PropTextLemmas.
Local Open Scope string_scope.

(** ** Pages *)

Lemma marked_text e r : without "<" e -> marked Before (e ++ r) = marked Before r.
Proof.
  induction e as [|x e IH]; [reflexivity|]. cbn. intros [N W]. destruct (Ascii.eqb_spec x "<"); [contradiction|]. now apply IH.
Qed.

Lemma marked_inside e r : without "<" e -> forall seen, marked (Inside seen) (e ++ String "<" r) = shown Text (seen ++ e) :: marked Closing r.
Proof.
  induction e as [|x e IH]; intros W seen; cbn.
  - now rewrite sapp_nil_r'.
  - destruct W as [N W]. destruct (Ascii.eqb_spec x "<"); [contradiction|]. rewrite (IH W). now rewrite sapp_assoc.
Qed.

Lemma marked_page l : marked Before (sconcat (map render l)) = map (fun t => no_nul (tvalue t)) (filter tlemma l).
Proof.
  induction l as [|t l IH]; [reflexivity|]. cbn [map sconcat filter].
  assert (W : without "<" (escape (tvalue t))) by exact (proj1 (escaped_harmless _ _ (escape_escaped _))).
  unfold render at 1, lemma_Execute, plain_Execute. destruct (tlemma t); [|rewrite <- IH; now apply marked_text].
  cbn [map]. rewrite <- IH. rewrite !sapp_assoc. unfold span_open, span_close, quote. cbn - [escape sconcat map shown].
  rewrite (marked_inside _ _ W). cbn - [escape sconcat map shown].
  pose proof (shown_escape (tvalue t) "") as E. rewrite sapp_nil_r' in E. rewrite E. cbn [shown]. now rewrite sapp_nil_r'.
Qed.

Lemma no_nul_lines l : no_nul (listing true l) = one_per_line (map (fun t => no_nul (tvalue t)) l).
Proof.
  induction l as [|t l IH]; [reflexivity|]. cbn [listing map]. rewrite no_nul_app. cbn [no_nul]. rewrite IH. unfold one_per_line. cbn [map sconcat].
  now rewrite sapp_assoc.
Qed.

(** ** Tokens *)

Section C106.
Variable c : command.

Notation input html s := (input_tokens go_unicode words_scan (parse c) html (mkReader s None)).
Notation Tags := (SynFilter go_unicode None (tags c)).
Notation FO := (filters_of (Fold go_unicode) (Contractions go_unicode words_scan contraction_mappings) Tags (fun lang => Stemmer go_unicode (stemmer c lang))).

Lemma input_yields html s : (html = true -> parsed (parse c (mkReader s None))) -> exists l, Yields (input html s) l.
Proof.
  intros P. destruct html; cbn [input_tokens].
  - destruct (P eq_refl) as [E N]. destruct (parse c (mkReader s None)) as [hs e]. cbn in E, N. subst e.
    destruct (C15_lemma go_unicode words_scan hs words_scan_ok) as (g & _ & _ & Y & _); [|eauto].
    intros h H T. split; [now apply N|reflexivity].
  - eexists. apply tokens_of.
Qed.

Lemma tags_yields html s : (html = true -> parsed (parse c (mkReader s None))) -> exists l, Yields (Tags (input html s)) l.
Proof.
  intros P. destruct (input_yields html s P) as (l & Y).
  destruct (C12_lemma go_unicode words_scan words_scan_ok go_comma [Tags] (Forall_cons _ (tags_lib c) (Forall_nil _)) _ _ Y) as (o & Yo & _). eauto.
Qed.

Lemma command_prints args set fl s x l : flag_Parse args = Some set -> get_bool "version" set = false ->
  get_string "file" "" set = "" -> get_string "out" "" set = "" -> ~ unknown_language args (get_string "lang" "english" set) ->
  FO (get_string "lang" "english" set) args fl -> Yields (ApplyFilters fl (input (get_bool "html" set) s)) l ->
  printed (get_bool "count" set) (get_bool "lines" set) l x -> prints c args s x.
Proof.
  intros Ps Vs Fi Ou Ul Fl Y P out acc dk direct wo mode A NR WF Si Sm Pm.
  unfold run. destruct (texts c) as [[[[prog version] commit] date] defaults].
  assert (V : valid (Fold go_unicode) (Contractions go_unicode words_scan contraction_mappings) (SynFilter go_unicode None (tags c)) (fun lang => Stemmer go_unicode (stemmer c lang))
    args set wo (mkReader s None) "" fl).
  { split; [exact Ps|]. split; [exact Vs|]. split; [now symmetry|]. split; [exact WF|]. split.
    - exists mode. split; [exact Sm|]. rewrite <- Si, Fi. apply Input_pipe; [reflexivity|exact Pm].
    - split; [exact Ul|]. split; [exact Fl|]. intros H. now destruct H. }
  destruct (C85_success go_unicode words_scan (parse c) _ _ _ _ (isPrint c) prog version commit date defaults (flag_exit c) out dk direct acc A args set wo (mkReader s None) "" fl l V Y)
    as (e & s' & R & P' & C).
  rewrite (printed_inj _ _ _ _ _ P' P) in C.
  exists e. destruct C as [(St & Er & Hg)|(_ & m & _ & _ & _ & Rf & _)].
  - split; [exact R|]. split; [exact St|]. split; [exact Er|]. destruct Hg as [(_ & G & F)|(H & _)]; [now split|now destruct H].
  - destruct Rf as [(_ & Rf)|(H & _)]; [now destruct (NR m)|now destruct H].
Qed.

Ltac other := apply FO_other; [cbn; intuition discriminate|].

Lemma prints_stack html s l : Yields (Tags (input html s)) l -> prints c (html_flag html ++ ["-stack"]) s (text l).
Proof.
  intros Y. rewrite <- listing_text. destruct html; cbn [html_flag app].
  - eapply (command_prints _ [("html", VBool true); ("stack", VBool true)] [Tags]); [reflexivity..| | |exact Y|reflexivity].
    + intros (I & _). cbn in I. intuition discriminate.
    + other. apply FO_filter; [constructor|]. constructor.
  - eapply (command_prints _ [("stack", VBool true)] [Tags]); [reflexivity..| | |exact Y|reflexivity].
    + intros (I & _). cbn in I. intuition discriminate.
    + apply FO_filter; [constructor|]. constructor.
Qed.

Lemma prints_lemmas html s l : Yields (Tags (input html s)) l ->
  prints c (html_flag html ++ ["-stack"; "-lemmas"; "-lines"]) s (listing true (filter tlemma l)).
Proof.
  intros Y. apply (Where_yields tlemma) in Y. destruct html; cbn [html_flag app].
  - eapply (command_prints _ [("html", VBool true); ("stack", VBool true); ("lemmas", VBool true); ("lines", VBool true)] [Tags; Lemmas]); [reflexivity..| | |exact Y|reflexivity].
    + intros (I & _). cbn in I. intuition discriminate.
    + other. apply FO_filter; [constructor|]. apply FO_filter; [constructor|]. other. constructor.
  - eapply (command_prints _ [("stack", VBool true); ("lemmas", VBool true); ("lines", VBool true)] [Tags; Lemmas]); [reflexivity..| | |exact Y|reflexivity].
    + intros (I & _). cbn in I. intuition discriminate.
    + apply FO_filter; [constructor|]. apply FO_filter; [constructor|]. other. constructor.
Qed.

Lemma prints_count html s l x : Yields (Tags (input html s)) l -> printed true false (filter tlemma l) x ->
  prints c (html_flag html ++ ["-stack"; "-lemmas"; "-count"]) s x.
Proof.
  intros Y P. apply (Where_yields tlemma) in Y. destruct html; cbn [html_flag app].
  - eapply (command_prints _ [("html", VBool true); ("stack", VBool true); ("lemmas", VBool true); ("count", VBool true)] [Tags; Lemmas]); [reflexivity..| | |exact Y|exact P].
    + intros (I & _). cbn in I. intuition discriminate.
    + other. apply FO_filter; [constructor|]. apply FO_filter; [constructor|]. other. constructor.
  - eapply (command_prints _ [("stack", VBool true); ("lemmas", VBool true); ("count", VBool true)] [Tags; Lemmas]); [reflexivity..| | |exact Y|exact P].
    + intros (I & _). cbn in I. intuition discriminate.
    + apply FO_filter; [constructor|]. apply FO_filter; [constructor|]. other. constructor.
Qed.

Lemma answers_page html s l : Yields (Tags (input html s)) l -> answers c html s (sconcat (map render l)).
Proof.
  intros Y conn acc q r Rel Un M Pa Bo.
  assert (F : first_segment (path q) (if html then "html" else "text")).
  { exists "", "". rewrite Pa. destruct html; cbn; repeat split; auto; discriminate. }
  assert (Rq : request_tokens go_unicode words_scan (parse c) q (if html then "html" else "text") (input html s)).
  { unfold request_tokens. rewrite Bo. destruct html; [right|left]; split; reflexivity. }
  destruct (C56_lemma go_unicode words_scan (parse c) Tags conn acc Rel 0 q r Un) as (_ & _ & G).
  destruct (G M _ _ _ F Rq Y) as ((* *) r' & [m R] & St & Pg). exists r'. split; [|split; [exact St|now apply page_inj]].
  exists m. intros k Hk. rewrite C75_others_lemma; [now apply R|]. rewrite Pa. destruct html; discriminate.
Qed.

Lemma answers_inj html s p p' : answers c html s p -> answers c html s p' -> p = p'.
Proof.
  intros A B. set (q := mkRequest "POST" (if html then "/html" else "/text") (mkReader s None)).
  assert (Un : untouched (w := sink) (fun ws => ws) (mkResponse (w := sink) None [] "")) by (split; reflexivity).
  destruct (A sink (fun ws => ws) q _ sink_reliable Un ltac:(discriminate) eq_refl eq_refl) as (r1 & R1 & _ & E1).
  destruct (B sink (fun ws => ws) q _ sink_reliable Un ltac:(discriminate) eq_refl eq_refl) as (r2 & R2 & _ & E2).
  rewrite (Returns_inj _ _ _ R1 R2) in E1. congruence.
Qed.

Lemma C106_lemma html s p : (html = true -> parsed (parse c (mkReader s None))) -> answers c html s p ->
  (forall x, prints c (html_flag html ++ ["-stack"]) s x -> shown Text p = no_nul x) /\
  (forall x, prints c (html_flag html ++ ["-stack"; "-lemmas"; "-lines"]) s x -> one_per_line (marked Before p) = no_nul x) /\
  (forall x, prints c (html_flag html ++ ["-stack"; "-lemmas"; "-count"]) s x -> exists d, decimal (List.length (marked Before p)) d /\ x = d ++ String "010" "").
Proof.
  intros P A. destruct (tags_yields html s P) as (l & Y). rewrite (answers_inj _ _ _ _ A (answers_page _ _ _ Y)). split; [|split]; intros x X.
  - rewrite (prints_inj c _ _ _ _ X (prints_stack _ _ _ Y)). apply shown_page.
  - rewrite (prints_inj c _ _ _ _ X (prints_lemmas _ _ _ Y)). rewrite marked_page. symmetry. apply no_nul_lines.
  - destruct (printed_ex true false (filter tlemma l)) as (y & Py). rewrite (prints_inj c _ _ _ _ X (prints_count _ _ _ _ Y Py)).
    rewrite marked_page, map_length. exact Py.
Qed.

Lemma C106_both html s : (html = true -> parsed (parse c (mkReader s None))) ->
  exists p x y z, answers c html s p /\ prints c (html_flag html ++ ["-stack"]) s x /\ prints c (html_flag html ++ ["-stack"; "-lemmas"; "-lines"]) s y /\
    prints c (html_flag html ++ ["-stack"; "-lemmas"; "-count"]) s z.
Proof.
  intros P. destruct (tags_yields html s P) as (l & Y). destruct (printed_ex true false (filter tlemma l)) as (z & Pz).
  do 4 eexists. split; [exact (answers_page _ _ _ Y)|]. split; [exact (prints_stack _ _ _ Y)|]. split; [exact (prints_lemmas _ _ _ Y)|]. exact (prints_count _ _ _ _ Y Pz).
Qed.
End C106.

(** The command with the small dictionary of [ask]. *)
Definition tool (args : list string) (s : string) : option string :=
  match build go_unicode words_scan 30 (mkConfig [("ruby on rails", "ruby-on-rails")] true [32; 45]%N) with
  | Ret (None, b) =>
    match process go_unicode words_scan no_html (Fold go_unicode) (Contractions go_unicode words_scan contraction_mappings) (SynFilter go_unicode None b)
      (fun _ s => s) (fun _ => true) "jargon" "" "" "" "" (fun _ => (2, "")) sink no_limit true 60 args (mkWorld sink no_files (mkReader s None) (inl 0%N) "") with
    | Ret e => Some (stdout _ (after _ e))
    | _ => None
    end
  | _ => None
  end.
