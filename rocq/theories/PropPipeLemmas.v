(** * Proofs about pipes (C99) *)

From Coq Require Import ZArith Lia DecimalString.
From Verif Require Import Base Utf8 Unicode UnicodeData Token Stream StreamSpec Tokenizer Words Html Filters Ascii Trie Synonyms ContractionsTable
  FilterSpec SynSpec ChainSpec Cli CliSpec Process ProcessSpec PipeSpec StreamProofs TokenProofs FilterProofs TrieProofs SynProofs BuildProofs WordsProofs ChainProofs CliProofs
  PropSynLemmas2 PropSynLemmas3 PropCliLemmas PropCliLemmas2 PropProcessLemmas PropRetextLemmas PropRefoldLemmas PropFoldExpandLemmas PropStableLemmas PropTextLemmas.
Local Open Scope string_scope.

(** ** The output of a filter depends on the tokens of the source *)

Lemma library_same U scan : scanner_ok scan -> uIsSpace U 44 = false -> forall F, library_filter U scan F ->
  forall s1 s2 l o, Yields s1 l -> Yields s2 l -> Yields (F s1) o -> Yields (F s2) o.
Proof.
  intros SC CS F H s1 s2 l o Y1 Y2 Yo. destruct H.
  - destruct (plain_transforms U scan SC F H) as (f & Y & _). rewrite (Yields_inj _ _ _ Yo (Y _ _ Y1)). apply Y, Y2.
  - rewrite (Yields_inj _ _ _ Yo (Sigil_yields U sigil legal H _ _ Y1)). now apply Sigil_yields.
  - rewrite (Yields_inj _ _ _ Yo (Sigil_yields U "@" _ ltac:(discriminate) _ _ Y1)). now apply Sigil_yields.
  - rewrite (Yields_inj _ _ _ Yo (Sigil_yields U "#" _ ltac:(discriminate) _ _ Y1)). now apply Sigil_yields.
  - destruct (build_inv U scan SC CS _ _ _ _ _ _ H H0) as (_ & tr & n & -> & R & W).
    assert (X : forall s, Yields s l -> exists o, rewrites U ic ig D n l o /\ Yields (SynFilter U None (mkBuilt (Some tr) n) s) o).
    { intros s Ys. destruct (Syn_yields U ic ig D tr n) with (s := s) (l := l) as (p & Rw & Yp); eauto.
      - intros; apply SearchCanonical_spec, R.
      - apply W. }
    destruct (X _ Y1) as (o1 & R1 & Z1), (X _ Y2) as (o2 & R2 & Z2). rewrite (Yields_inj _ _ _ Yo Z1), (C38_functional _ _ _ _ _ _ _ _ R1 R2). exact Z2.
Qed.

Lemma chain_same U scan : scanner_ok scan -> uIsSpace U 44 = false -> forall fs, Forall (library_filter U scan) fs ->
  forall s1 s2 l o, Yields s1 l -> Yields s2 l -> Yields (ApplyFilters fs s1) o -> Yields (ApplyFilters fs s2) o.
Proof.
  intros SC CS fs H. induction H as [|F fs HF _ IH]; intros s1 s2 l o Y1 Y2 Yo.
  - cbn in *. rewrite (Yields_inj _ _ _ Yo Y1). exact Y2.
  - cbn [ApplyFilters fold_left] in *. destruct (proj1 (library_keeps U scan SC CS F HF) _ _ Y1) as (p & Yp).
    apply (IH (F s1) (F s2) p o Yp); [|exact Yo]. exact (library_same U scan SC CS F HF _ _ _ _ Y1 Y2 Yp).
Qed.

(** ** Numerals *)

Lemma decimal_inj n d d' : decimal n d -> decimal n d' -> d = d'.
Proof.
  intros (u & U1 & U2 & U3) (v & V1 & V2 & V3). apply NilZero.sus in U1. apply NilZero.sus in V1. rewrite <- U1, <- V1. f_equal.
  rewrite <- U3, <- V3, <- !DecimalNat.Unsigned.to_of. now rewrite U2, V2.
Qed.

Lemma printed_inj count lines l x y : printed count lines l x -> printed count lines l y -> x = y.
Proof.
  unfold printed. destruct count; [|congruence]. intros (d & D & ->) (d' & D' & ->). now rewrite (decimal_inj _ _ _ D D').
Qed.

Lemma printed_ex count lines l : exists x, printed count lines l x.
Proof. destruct count; cbn; [|eauto]. exists (itoa (List.length l) ++ String "010" ""), (itoa (List.length l)). split; [apply itoa_decimal|reflexivity]. Qed.

Lemma listing_text l : listing false l = text l.
Proof. induction l as [|t l IH]; [reflexivity|]. cbn [listing]. rewrite IH. reflexivity. Qed.

(** ** Flags *)

Lemma assoc_other {A} n m (v : A) l : n <> m -> assoc n (l ++ [(m, v)])%list = assoc n l.
Proof.
  intros N. induction l as [|[k w] l IH]; cbn; [|now rewrite IH]. destruct (seqb n m) eqn:E; [apply seqb_eq in E; contradiction|].
  rewrite ?E. try (destruct (seqb m n) eqn:E'; [apply seqb_eq in E'; congruence|]). reflexivity.
Qed.

Lemma bool_other n m v set : n <> m -> get_bool n ((m, v) :: set) = get_bool n set.
Proof. intros N. unfold get_bool. cbn [rev]. now rewrite assoc_other. Qed.
Lemma string_other n m v d set : n <> m -> get_string n d ((m, v) :: set) = get_string n d set.
Proof. intros N. unfold get_string. cbn [rev]. now rewrite assoc_other. Qed.

Definition names_of_flags : list string := ["ascii"; "contractions"; "lemmas"; "distinct"; "stack"].

Lemma flag_first a args set : In a plain_flags -> flag_Parse args = Some set ->
  exists n, In n names_of_flags /\ a = "-" ++ n /\ flag_Parse (a :: args) = Some ((n, VBool true) :: set).
Proof.
  intros I P. cbn in I. repeat (destruct I as [<-|I]; [eexists; split; [|split; [reflexivity|cbn; rewrite P; reflexivity]]; cbn; auto 10|]). destruct I.
Qed.

Lemma name_is n m : In n names_of_flags -> ~ In m names_of_flags -> m <> n.
Proof. intros H K ->. contradiction. Qed.

Section C99.
Variable c : command.

Notation tok s := (TokenizeString go_unicode words_scan s).
Notation FO := (filters_of (Fold go_unicode) (Contractions go_unicode words_scan contraction_mappings) (SynFilter go_unicode None (tags c)) (fun lang => Stemmer go_unicode (stemmer c lang))).

Lemma expand_lib : library_filter go_unicode words_scan (Contractions go_unicode words_scan contraction_mappings).
Proof. apply LF_plain, PF_expand. reflexivity. Qed.

Lemma tags_lib : library_filter go_unicode words_scan (SynFilter go_unicode None (tags c)).
Proof.
  destruct (tags_ok c) as (ms & ic & ig & B). destruct (concrete_built ms ic ig) as (D & b & Dd & _). eapply LF_synonyms; eassumption.
Qed.

Lemma chosen lang args fl : FO lang args fl -> Forall (library_filter go_unicode words_scan) fl.
Proof.
  induction 1 as [|a f args fl St _ IH|]; [constructor| |assumption]. constructor; [|exact IH].
  destruct St; [apply LF_plain, PF_fold|apply expand_lib|apply LF_plain, PF_lemmas|apply LF_plain, PF_distinct|apply tags_lib| |];
  apply LF_plain, PF_stemmer; apply stemmer_ok.
Qed.

Lemma chain_yields fl s : Forall (library_filter go_unicode words_scan) fl -> exists l, Yields (ApplyFilters fl (tok s)) l.
Proof.
  intros H. destruct (C12_lemma go_unicode words_scan words_scan_ok go_comma fl H _ _ (tokens_of go_unicode s)) as (o & Y & _). eauto.
Qed.

(** What a command prints. *)
Definition shows (set : list (string * fvalue)) (fl : list Filter) (s x : string) : Prop :=
  exists l, Yields (ApplyFilters fl (tok s)) l /\ printed (get_bool "count" set) (get_bool "lines" set) l x.

Lemma shows_prints args set fl s x : flag_Parse args = Some set -> get_bool "version" set = false -> get_bool "html" set = false ->
  get_string "file" "" set = "" -> get_string "out" "" set = "" -> ~ unknown_language args (get_string "lang" "english" set) ->
  FO (get_string "lang" "english" set) args fl -> shows set fl s x -> prints c args s x.
Proof.
  intros Ps Vs Hs Fi Ou Ul Fl (l & Y & P) out acc dk direct wo mode A NR WF Si Sm Pm.
  unfold run. destruct (texts c) as [[[[prog version] commit] date] defaults].
  assert (V : valid (Fold go_unicode) (Contractions go_unicode words_scan contraction_mappings) (SynFilter go_unicode None (tags c)) (fun lang => Stemmer go_unicode (stemmer c lang))
    args set wo (mkReader s None) "" fl).
  { split; [exact Ps|]. split; [exact Vs|]. split; [now symmetry|]. split; [exact WF|]. split.
    - exists mode. split; [exact Sm|]. rewrite <- Si, Fi. apply Input_pipe; [reflexivity|exact Pm].
    - split; [exact Ul|]. split; [exact Fl|]. intros H. now destruct H. }
  destruct (C85_success go_unicode words_scan (parse c) _ _ _ _ (isPrint c) prog version commit date defaults (flag_exit c) out dk direct acc A args set wo (mkReader s None) "" fl l V)
    as (e & s' & R & P' & C).
  { rewrite Hs. exact Y. }
  rewrite (printed_inj _ _ _ _ _ P' P) in C.
  exists e. destruct C as [(St & Er & Hg)|(_ & m & _ & _ & _ & Rf & _)].
  - split; [exact R|]. split; [exact St|]. split; [exact Er|]. destruct Hg as [(_ & G & F)|(H & _)]; [now split|now destruct H].
  - destruct Rf as [(_ & Rf)|(H & _)]; [now destruct (NR m)|now destruct H].
Qed.

Lemma prints_inj args s x y : prints c args s x -> prints c args s y -> x = y.
Proof.
  intros X Y. set (wo := mkWorld sink no_files (mkReader s None) (inl 0%N) "").
  assert (NR : forall e, ~ refuses sink e) by (intros e (ws & v & n & ws' & H); discriminate H).
  assert (WF : well_formed_fs (fs _ wo)) by (intros n i H; discriminate H).
  destruct (X sink (fun ws => ws) (fun _ _ _ => None) true wo 0%N sink_accepts NR WF eq_refl eq_refl eq_refl) as (e & R & _ & _ & E & _).
  destruct (Y sink (fun ws => ws) (fun _ _ _ => None) true wo 0%N sink_accepts NR WF eq_refl eq_refl eq_refl) as (e' & R' & _ & _ & E' & _).
  rewrite (Returns_inj _ _ _ R R') in E. rewrite E in E'. exact E'.
Qed.

Lemma prints_shows args set fl s x : flag_Parse args = Some set -> get_bool "version" set = false -> get_bool "html" set = false ->
  get_string "file" "" set = "" -> get_string "out" "" set = "" -> ~ unknown_language args (get_string "lang" "english" set) ->
  FO (get_string "lang" "english" set) args fl -> (prints c args s x <-> shows set fl s x).
Proof.
  intros Ps Vs Hs Fi Ou Ul Fl. split; [|exact (shows_prints _ _ _ _ _ Ps Vs Hs Fi Ou Ul Fl)].
  intros P. destruct (chain_yields fl s (chosen _ _ _ Fl)) as (l & Y). destruct (printed_ex (get_bool "count" set) (get_bool "lines" set) l) as (y & Py).
  assert (Sy : shows set fl s y) by (exists l; auto). rewrite (prints_inj _ _ _ _ P (shows_prints _ _ _ _ _ Ps Vs Hs Fi Ou Ul Fl Sy)). exact Sy.
Qed.

(** ** The filter flags before other arguments *)

Lemma flags_first a : Forall (fun x => In x plain_flags) a -> forall args set, flag_Parse args = Some set ->
  exists set', flag_Parse (a ++ args) = Some set' /\
    (forall n, ~ In n names_of_flags -> get_bool n set' = get_bool n set) /\ (forall n d, ~ In n names_of_flags -> get_string n d set' = get_string n d set).
Proof.
  induction 1 as [|x a I _ IH]; intros args set P; [exists set; auto|]. destruct (IH _ _ P) as (set1 & P1 & B1 & S1).
  destruct (flag_first x _ _ I P1) as (n & N & -> & P2). exists ((n, VBool true) :: set1). split; [exact P2|]. split.
  - intros m M. rewrite bool_other; [now apply B1|]. now apply name_is.
  - intros m d M. rewrite string_other; [now apply S1|]. now apply name_is.
Qed.

Lemma flags_filters a lang : Forall (fun x => In x plain_flags) a -> forall args fl, FO lang args fl -> FO lang (a ++ args) (map (filter_of_flag c) a ++ fl).
Proof.
  induction 1 as [|x a I _ IH]; intros args fl F; [exact F|]. cbn [app map]. apply FO_filter; [|now apply IH].
  cbn in I. repeat (destruct I as [<-|I]; [constructor|]). destruct I.
Qed.

Lemma flags_language a : Forall (fun x => In x plain_flags) a -> forall args lang, ~ unknown_language args lang -> ~ unknown_language (a ++ args) lang.
Proof.
  intros H args lang U (I & X). apply U. split; [|exact X]. apply in_app_or in I. destruct I as [I|I]; [|exact I].
  rewrite Forall_forall in H. specialize (H _ I). cbn in H. repeat (destruct H as [H|H]; [discriminate H|]). destruct H.
Qed.

Lemma flags_lib a : Forall (fun x => In x plain_flags) a -> Forall (library_filter go_unicode words_scan) (map (filter_of_flag c) a).
Proof. intros H. apply (chosen "" (a ++ []) _). rewrite <- (app_nil_r (map _ _)). apply flags_filters; [exact H|constructor]. Qed.

Lemma flags_prints a : Forall (fun x => In x plain_flags) a -> forall s x,
  prints c a s x <-> exists l, Yields (ApplyFilters (map (filter_of_flag c) a) (tok s)) l /\ x = text l.
Proof.
  intros H s x. destruct (flags_first a H [] [] eq_refl) as (set & P & B & S). rewrite app_nil_r in P.
  rewrite (prints_shows a set (map (filter_of_flag c) a) s x P).
  - unfold shows. rewrite !B by (cbn; intuition discriminate). cbn [get_bool rev assoc printed]. split; intros (l & Y & E); exists l; (split; [exact Y|]);
    rewrite ?listing_text in *; exact E.
  - rewrite B by (cbn; intuition discriminate). reflexivity.
  - rewrite B by (cbn; intuition discriminate). reflexivity.
  - rewrite S by (cbn; intuition discriminate). reflexivity.
  - rewrite S by (cbn; intuition discriminate). reflexivity.
  - rewrite <- (app_nil_r a). apply flags_language; [exact H|]. intros (I & _). destruct I.
  - rewrite <- (app_nil_r a) at 1. rewrite <- (app_nil_r (map _ a)). apply flags_filters; [exact H|constructor].
Qed.

Lemma C99_general a b s l : Forall (fun x => In x plain_flags) a -> text_command b ->
  Yields (ApplyFilters (map (filter_of_flag c) a) (tok s)) l -> Yields (tok (text l)) l ->
  forall x, prints c (a ++ b) s x <-> piped_through c a b s x.
Proof.
  intros Ha (set & P & V & Ht & Fi & Ou & Ul) Y Z x.
  destruct (flags_first a Ha b set P) as (set' & P' & B & S).
  assert (N : forall n, In n ["version"; "html"; "file"; "out"; "lang"; "count"; "lines"] -> ~ In n names_of_flags).
  { intros n I. cbn in I. repeat (destruct I as [<-|I]; [cbn; intuition discriminate|]). destruct I. }
  destruct (proj2 (C49_lemma (Fold go_unicode) (Contractions go_unicode words_scan contraction_mappings) (SynFilter go_unicode None (tags c)) (fun lang => Stemmer go_unicode (stemmer c lang))
    (isPrint c) "" b (get_string "lang" "english" set) (new_config false false false)) Ul) as (fl & Fl & _).
  assert (E1 : prints c (a ++ b) s x <-> shows set' (map (filter_of_flag c) a ++ fl) s x).
  { apply prints_shows; [exact P'| | | | | |].
    - rewrite B; [exact V|apply N; cbn; auto 10].
    - rewrite B; [exact Ht|apply N; cbn; auto 10].
    - rewrite S; [exact Fi|apply N; cbn; auto 10].
    - rewrite S; [exact Ou|apply N; cbn; auto 10].
    - rewrite S by (apply N; cbn; auto 10). now apply flags_language.
    - rewrite S by (apply N; cbn; auto 10). now apply flags_filters. }
  rewrite E1. unfold shows. rewrite !B by (apply N; cbn; auto 10).
  assert (A : forall f1 f2 s, ApplyFilters (f1 ++ f2) s = ApplyFilters f2 (ApplyFilters f1 s)) by (intros; unfold ApplyFilters; apply fold_left_app).
  pose proof (chain_same go_unicode words_scan words_scan_ok go_comma fl (chosen _ _ _ Fl)) as Sm.
  split.
  - intros (o & Yo & Po). exists (text l). split; [apply flags_prints; [exact Ha|exists l; auto]|].
    apply (prints_shows b set fl (text l) x P V Ht Fi Ou Ul Fl). exists o. split; [|exact Po].
    rewrite A in Yo. exact (Sm _ _ _ _ Y Z Yo).
  - intros (m & Pa & Pb). apply flags_prints in Pa; [|exact Ha]. destruct Pa as (l' & Y' & ->). rewrite (Yields_inj _ _ _ Y' Y) in *.
    apply (prints_shows b set fl (text l) x P V Ht Fi Ou Ul Fl) in Pb. destruct Pb as (o & Yo & Po). exists o. split; [|exact Po].
    rewrite A. exact (Sm _ _ _ _ Z Y Yo).
Qed.

Lemma C99_prints b s : text_command b -> exists x, prints c b s x /\ forall y, prints c b s y -> y = x.
Proof.
  intros (set & P & V & Ht & Fi & Ou & Ul).
  destruct (proj2 (C49_lemma (Fold go_unicode) (Contractions go_unicode words_scan contraction_mappings) (SynFilter go_unicode None (tags c)) (fun lang => Stemmer go_unicode (stemmer c lang))
    (isPrint c) "" b (get_string "lang" "english" set) (new_config false false false)) Ul) as (fl & Fl & _).
  destruct (chain_yields fl s (chosen _ _ _ Fl)) as (l & Y). destruct (printed_ex (get_bool "count" set) (get_bool "lines" set) l) as (x & Px).
  assert (X : prints c b s x) by (apply (shows_prints b set fl s x P V Ht Fi Ou Ul Fl); exists l; auto).
  exists x. split; [exact X|]. intros y Py. exact (prints_inj _ _ _ _ Py X).
Qed.

Lemma C99_nothing b : text_command b -> forall s x, prints c b s x <-> piped_through c [] b s x.
Proof.
  intros Tb s x. apply (C99_general [] b s (map (piece_token go_unicode) (word_segments s))); [constructor|exact Tb|apply tokens_of|].
  rewrite text_pieces, (proj1 (word_segments_ok s)). apply tokens_of.
Qed.

Lemma C99_copies s : prints c [] s s.
Proof.
  apply (flags_prints [] (Forall_nil _)). exists (map (piece_token go_unicode) (word_segments s)). split; [apply tokens_of|].
  now rewrite text_pieces, (proj1 (word_segments_ok s)).
Qed.

Lemma C99_expand b : text_command b -> forall s x, prints c ("-contractions" :: b) s x <-> piped_through c ["-contractions"] b s x.
Proof.
  intros Tb s x. destruct (chain_yields [Contractions go_unicode words_scan contraction_mappings] s) as (l & Y); [constructor; [apply expand_lib|constructor]|].
  apply (C99_general ["-contractions"] b s l); [constructor; [cbn; auto 10|constructor]|exact Tb|exact Y|]. exact (proj1 (C80_lemma _ _ Y)).
Qed.

Lemma C99_fold s x : prints c ["-ascii"] s x <-> piped_through c ["-ascii"] ["-ascii"] s x.
Proof.
  assert (I : Forall (fun x => In x plain_flags) ["-ascii"]) by (constructor; [cbn; auto 10|constructor]).
  assert (A : forall y, prints c ["-ascii"] s y -> prints c ["-ascii"] y y).
  { intros y P. apply (flags_prints _ I) in P. destruct P as (l & Y & ->).
    destruct (C81_lemma go_unicode s l Y) as (o & _ & Yo & E). apply (flags_prints _ I). exists o. split; [exact Yo|now symmetry]. }
  split.
  - intros P. exists x. auto.
  - intros (m & Pa & Pb). rewrite (prints_inj _ _ _ _ Pb (A _ Pa)). exact Pa.
Qed.
End C99.

(** ** Folding can make more tokens *)

Lemma no_tags_built : exists ms ic ig, built_from go_unicode words_scan ms ic ig (mkBuilt (Some (trie_New true [])) 1).
Proof. exists [], true, []. exists 1. intros [|m] H; [lia|]. reflexivity. Qed.

(** Stemmers that change nothing, no tags. *)
Definition no_tags : command := mkCommand no_html (fun _ v _ => v) (fun _ v H => H) (mkBuilt (Some (trie_New true [])) 1) no_tags_built (fun _ => true) ("jargon", "", "", "", "") (fun _ => (2, "")).

Definition bracketed : string := encode [9332%N].

Lemma lines_command : text_command ["-lines"].
Proof. exists [("lines", VBool true)]. repeat split. intros (I & _). cbn in I. intuition discriminate. Qed.

Lemma bracketed_lines c : prints c ["-ascii"; "-lines"] bracketed ("(1)" ++ String LF "").
Proof.
  eapply shows_prints; try reflexivity.
  - intros (I & _). cbn in I. intuition discriminate.
  - apply FO_filter; [constructor|]. apply FO_other; [cbn; intuition discriminate|constructor].
  - exists (map fold_tok (map (piece_token go_unicode) (word_segments bracketed))). split; [apply Fold_yields, tokens_of|].
    vm_compute. reflexivity.
Qed.

Lemma bracketed_piped c : piped_through c ["-ascii"] ["-lines"] bracketed ("(" ++ String LF ("1" ++ String LF (")" ++ String LF ""))).
Proof.
  exists "(1)". split.
  - apply flags_prints; [constructor; [cbn; auto 10|constructor]|]. exists (map fold_tok (map (piece_token go_unicode) (word_segments bracketed))). split; [apply (Fold_yields _ _), tokens_of|].
    vm_compute. reflexivity.
  - eapply shows_prints; try reflexivity.
    + intros (I & _). cbn in I. intuition discriminate.
    + apply FO_other; [cbn; intuition discriminate|constructor].
    + exists (map (piece_token go_unicode) (word_segments "(1)")). split; [apply tokens_of|]. vm_compute. reflexivity.
Qed.

Lemma C99_refutation : ~ (forall c a b, Forall (fun x => In x plain_flags) a -> text_command b ->
  forall s x, prints c (a ++ b) s x <-> piped_through c a b s x).
Proof.
  intros H. pose proof (proj2 (H no_tags ["-ascii"] ["-lines"] ltac:(constructor; [cbn; auto 10|constructor]) lines_command bracketed _) (bracketed_piped no_tags)) as P.
  pose proof (prints_inj _ _ _ _ _ P (bracketed_lines no_tags)) as E. discriminate E.
Qed.
