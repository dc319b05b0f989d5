(** * PropServeLemmas: concurrent requests (C102). *)

From Coq Require Import Permutation.
From Verif Require Import Base Utf8 Unicode UnicodeData Token Stream StreamSpec Tokenizer Html Queue Words Trie Synonyms Once OnceSpec Serve ServeSpec
  FilterSpec SynSpec ChainSpec DictSpec Dictionaries Web StreamProofs BuildProofs OnceProofs DictProofs PropSynLemmas PropSynLemmas2 Words WordsProofs.

(** ** Streams that are the same *)

Lemma Same_related {X Y} (step1 : nat -> X -> outcome (result * X)) (step2 : nat -> Y -> outcome (result * Y)) (R : X -> Y -> Prop) :
  (forall fuel x y, R x y ->
    (exists r x' y', step1 fuel x = Ret (r, x') /\ step2 fuel y = Ret (r, y') /\ R x' y') \/
    (step1 fuel x = Panic /\ step2 fuel y = Panic) \/ (step1 fuel x = NoFuel /\ step2 fuel y = NoFuel)) ->
  forall tok err x y, R x y -> Same (closure step1 tok err x) (closure step2 tok err y).
Proof.
  intros E. cofix IH. intros tok err x y Rxy. constructor; [reflexivity|reflexivity|].
  intros fuel. unfold Next. cbn [ts_next closure].
  destruct (E fuel x y Rxy) as [(r & x' & y' & E1 & E2 & R')|[[E1 E2]|[E1 E2]]]; rewrite E1, E2.
  - left. do 3 eexists. split; [reflexivity|]. split; [reflexivity|]. now apply IH.
  - right; left. auto.
  - right; right. auto.
Qed.

Lemma Same_sym : forall s1 s2, Same s1 s2 -> Same s2 s1.
Proof.
  cofix IH. intros s1 s2 [A B C]. constructor; [now symmetry|now symmetry|]. intros fuel.
  destruct (C fuel) as [(r & a & b & E1 & E2 & S)|[[E1 E2]|[E1 E2]]]; [left; exists r, b, a; auto|right; left|right; right]; auto.
Qed.

Lemma Same_trans : forall s1 s2 s3, Same s1 s2 -> Same s2 s3 -> Same s1 s3.
Proof.
  cofix IH. intros s1 s2 s3 [A B C] [A' B' C']. constructor; [congruence|congruence|]. intros fuel.
  destruct (C fuel) as [(r & a & b & E1 & E2 & S)|[[E1 E2]|[E1 E2]]];
  destruct (C' fuel) as [(r' & a' & b' & E1' & E2' & S')|[[E1' E2']|[E1' E2']]]; rewrite E2 in E1'; try discriminate E1'.
  - injection E1' as <- <-. left. exists r, a, b'. split; [exact E1|]. split; [exact E2'|]. eapply IH; eassumption.
  - right; left. auto.
  - right; right. auto.
Qed.

(** ** The handler *)

Section Handler.
Variable U : unicode.
Variable scan : oracle.
Variable parse : reader -> hparser.
Variable conn : Stream.writer.

Lemma render_loop_same fuel k : forall b (r : response conn) s1 s2, Same s1 s2 ->
  render_loop conn fuel k b r s1 = render_loop conn fuel k b r s2.
Proof.
  induction k as [|k IH]; intros b r s1 s2 S; [reflexivity|]. cbn [render_loop].
  destruct S as [_ _ C]. destruct (C fuel) as [([t err] & a & b' & E1 & E2 & S)|[[E1 E2]|[E1 E2]]]; rewrite E1, E2; cbn [bind]; try reflexivity.
  destruct t; [|reflexivity]. now apply IH.
Qed.

Lemma serve_same (F1 F2 : Filter) : (forall s, Same (F1 s) (F2 s)) -> forall fuel q r,
  serve U scan parse F1 conn fuel q r = serve U scan parse F2 conn fuel q r.
Proof.
  intros S fuel q r. unfold serve, mainHandler, jargonHandler. destruct (seqb (path q) _); [reflexivity|].
  destruct (seqb (method q) _); [reflexivity|]. destruct (split_slash (path q)) as [|x [|y l]]; try reflexivity.
  assert (G : forall s, render_loop conn fuel fuel EmptyString (cors conn r) (ApplyFilters [F1] s) = render_loop conn fuel fuel EmptyString (cors conn r) (ApplyFilters [F2] s)).
  { intros s. apply render_loop_same, S. }
  destruct (seqb y "text"); [now rewrite G|]. destruct (seqb y "html"); [now rewrite G|reflexivity].
Qed.
End Handler.

(** ** The shared filter *)

Section Shared.
Variable U : unicode.
Variable scan : oracle.
Hypothesis SC : scanner_ok scan.
Hypothesis CS : uIsSpace U 44 = false.
Variable c : config.
Hypothesis Keys : forall k x, In (k, x) (cf_mappings c) -> serr (scan (mkReader k None)) = None.

Lemma runs_trans a b d : runs U scan a b -> runs U scan b d -> runs U scan a d.
Proof. induction 1; intros H2; [exact H2|]. eapply R_step; [eassumption|auto]. Qed.

Lemma history_runs s h : history U scan s h -> forall k, runs U scan s (h k).
Proof. intros [A B] k. induction k; [exact A|]. eapply runs_trans; eauto. Qed.

Lemma live_same i e h : being_served U scan c i e h ->
  exists ms b, Permutation (cf_mappings c) ms /\ built_from U scan ms (cf_ignoreCase c) (cf_ignoreRunes c) b /\
    forall s, Same (LiveFilter U e h s) (SynFilter U None b s).
Proof.
  intros (s0 & R & M & H). destruct (C43_lemma U scan c SC CS Keys s0 R) as (_ & _ & _ & G).
  destruct (G i e M) as (_ & -> & ms & b & P & B & K). exists ms, b. split; [exact P|]. split; [exact B|].
  intros s. apply (Same_related _ _ (fun x y => snd x = y)); [|reflexivity].
  intros fuel [k st] y <-. cbn [snd live_next]. destruct (K (h k) (history_runs _ _ H k)) as (-> & -> & _).
  destruct b as [t n]. cbn [b_trie b_maxWords]. destruct (syn_closure U None (mkBuilt t n) fuel st) as [[r st']| |]; cbn [bind].
  - left. exists r, (S k, st'), st'. auto.
  - right; left. auto.
  - right; right. auto.
Qed.

Lemma C102_alone_lemma : 
  (forall ms1 ms2 b1 b2, Permutation (cf_mappings c) ms1 -> Permutation (cf_mappings c) ms2 ->
     built_from U scan ms1 (cf_ignoreCase c) (cf_ignoreRunes c) b1 -> built_from U scan ms2 (cf_ignoreCase c) (cf_ignoreRunes c) b2 ->
     forall s, Same (SynFilter U None b1 s) (SynFilter U None b2 s)) ->
  forall i e h, being_served U scan c i e h ->
  forall ms b, Permutation (cf_mappings c) ms -> built_from U scan ms (cf_ignoreCase c) (cf_ignoreRunes c) b ->
  forall s, Same (LiveFilter U e h s) (SynFilter U None b s).
Proof.
  intros Ord i e h Bs ms b P B s. destruct (live_same i e h Bs) as (ms' & b' & P' & B' & S).
  eapply Same_trans; [apply S|]. exact (Ord ms' ms b' b P' P B' B s).
Qed.

Lemma C102_lemma :
  (forall ms1 ms2 b1 b2, Permutation (cf_mappings c) ms1 -> Permutation (cf_mappings c) ms2 ->
     built_from U scan ms1 (cf_ignoreCase c) (cf_ignoreRunes c) b1 -> built_from U scan ms2 (cf_ignoreCase c) (cf_ignoreRunes c) b2 ->
     forall s, Same (SynFilter U None b1 s) (SynFilter U None b2 s)) ->
  forall i1 e1 h1 i2 e2 h2, being_served U scan c i1 e1 h1 -> being_served U scan c i2 e2 h2 ->
  forall s, Same (LiveFilter U e1 h1 s) (LiveFilter U e2 h2 s).
Proof.
  intros Ord i1 e1 h1 i2 e2 h2 B1 B2 s. destruct (live_same i2 e2 h2 B2) as (ms & b & P & B & S).
  eapply Same_trans; [eapply C102_alone_lemma; eauto|]. apply Same_sym, S.
Qed.
End Shared.

Lemma C102_serve_lemma (scan : oracle) : scanner_ok scan ->
  (forall k x, In (k, x) (cf_mappings Tags_config) -> cuts_at_commas scan k /\ serr (scan (mkReader k None)) = None) ->
  forall i1 e1 h1 i2 e2 h2, being_served go_unicode scan Tags_config i1 e1 h1 -> being_served go_unicode scan Tags_config i2 e2 h2 ->
  forall (parse : reader -> hparser) (conn : Stream.writer) (fuel : nat) (q : request) (r : response conn),
  serve go_unicode scan parse (LiveFilter go_unicode e1 h1) conn fuel q r = serve go_unicode scan parse (LiveFilter go_unicode e2 h2) conn fuel q r.
Proof.
  intros SC K i1 e1 h1 i2 e2 h2 B1 B2 parse conn fuel q r. apply serve_same. intros s.
  eapply (C102_lemma go_unicode scan SC go_comma Tags_config); try eassumption; [intros k x H; now apply (K k x)|].
  apply (shipped_lemma Tags_config so_table_ok scan SC). intros k x H. now apply (K k x).
Qed.

Lemma C102_serve_alone (scan : oracle) : scanner_ok scan ->
  (forall k x, In (k, x) (cf_mappings Tags_config) -> cuts_at_commas scan k /\ serr (scan (mkReader k None)) = None) ->
  forall i e h, being_served go_unicode scan Tags_config i e h ->
  exists ms b, Permutation (cf_mappings Tags_config) ms /\
    built_from go_unicode scan ms (cf_ignoreCase Tags_config) (cf_ignoreRunes Tags_config) b /\
    forall (parse : reader -> hparser) (conn : Stream.writer) (fuel : nat) (q : request) (r : response conn),
    serve go_unicode scan parse (LiveFilter go_unicode e h) conn fuel q r = serve go_unicode scan parse (SynFilter go_unicode None b) conn fuel q r.
Proof.
  intros SC K i e h B. destruct (live_same go_unicode scan SC go_comma Tags_config (fun k x H => proj2 (K k x H)) i e h B) as (ms & b & P & Bb & S).
  exists ms, b. split; [exact P|]. split; [exact Bb|]. intros. apply serve_same, S.
Qed.

Lemma C102_filter_lemma (U : unicode) (scan : oracle) (c : config) : scanner_ok scan -> uIsSpace U 44 = false ->
  (forall k x, In (k, x) (cf_mappings c) -> serr (scan (mkReader k None)) = None) ->
  (forall ms D, Permutation (cf_mappings c) ms -> dictionary_of (key_tokens U scan) ms D -> unambiguous U (cf_ignoreCase c) (cf_ignoreRunes c) D) ->
  forall i1 e1 h1 i2 e2 h2, being_served U scan c i1 e1 h1 -> being_served U scan c i2 e2 h2 ->
  forall s, Same (LiveFilter U e1 h1 s) (LiveFilter U e2 h2 s).
Proof.
  intros SC CS K A i1 e1 h1 i2 e2 h2 B1 B2. eapply (C102_lemma U scan SC CS c K); try eassumption.
  intros ms1 ms2 b1 b2 P1 P2 X1 X2.
  destruct (built_dictionary U scan SC CS _ _ _ _ X1) as (D1 & Dd1).
  destruct (built_dictionary U scan SC CS _ _ _ _ X2) as (D2 & Dd2).
  eapply (C36_lemma U scan SC CS ms1 ms2); eauto; [rewrite <- P1; exact P2|apply (A ms1 D1 P1 Dd1)].
Qed.

Lemma C102_served : exists h, being_served go_unicode words_scan Tags_config 0 None h /\ being_served go_unicode words_scan Tags_config 1 None h.
Proof.
  destruct (build_ok go_unicode words_scan words_scan_ok go_comma (cf_mappings Tags_config) (cf_ignoreCase Tags_config) (cf_ignoreRunes Tags_config)) as (D & tr & n & _ & B & _); [reflexivity|].
  destruct (two_calls go_unicode words_scan Tags_config words_scan_ok go_comma None (mkBuilt (Some tr) n)) as (s & R & E0 & E1).
  { eexists. split; [reflexivity|exact B]. }
  exists (fun _ => s). split; exists s; (split; [exact R|]); (split; [assumption|]); split; intros; constructor.
Qed.

Lemma C102_error (U : unicode) (e : error) (h : nat -> state) (s : TokenStream) : Refuses e (LiveFilter U (Some e) h s).
Proof.
  unfold LiveFilter, NewTokenStream. generalize (0, mkSyn s (q_new []) (q_new [])). generalize (@None token) (@None error).
  cofix IH. intros tok err [k st]. eapply Refuses_next; [exists 0; reflexivity|apply IH].
Qed.

Lemma C102_error_served : exists e h, being_served go_unicode (limited 5) (mkConfig [("javascript", "js")]%string true []) 0 (Some e) h.
Proof.
  destruct (C44_refutation go_unicode (limited 5) (mkConfig [("javascript", "js")]%string true []) (limited_ok 5) eq_refl "javascript"%string "js"%string _
    (or_introl eq_refl) eq_refl) as (s & e & R & M & _).
  exists e, (fun _ => s). exists s. split; [exact R|]. split; [exact M|]. split; intros; constructor.
Qed.
