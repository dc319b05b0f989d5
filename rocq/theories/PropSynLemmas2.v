(** * Lemmas behind C30, C40 - C42: look-ahead, lost tokens, lemma marks. *)

From Verif Require Import Base Utf8 Unicode UnicodeData Token Stream StreamSpec ListSpec Queue Tokenizer Words Filters Ascii
  ContractionsTable Trie Synonyms FilterSpec SynSpec ChainSpec StreamProofs TokenProofs FilterProofs AsciiProofs WordsProofs
  TrieProofs SynProofs BuildProofs ChainProofs Sources PropFiltersLemmas PropSigilLemmas PropSynLemmas.

(** ** C41: the synonyms filter reads everything first *)

Section Endless.
Variable U : unicode.
Variable ic : bool.
Variable ig : list N.
Variable D : dictionary.
Variable tr : trie.
Variable mw : nat.
Hypothesis Search : forall l, finds U ic ig D l (SearchCanonical U tr l).
Hypothesis Mw : 1 <= mw.
Variable f : nat -> token.

Definition at_ (s : TokenStream) (i : nat) : Prop := ts_next s = ts_next (closure (sequence_next f) None None i).

Lemma at_next s i fuel : at_ s i -> exists s', Next fuel s = Ret ((Some (f i), None), s') /\ at_ s' (S i).
Proof.
  intros A. unfold Next. rewrite A. cbn [ts_next closure sequence_next]. eexists. split; [reflexivity|].
  reflexivity.
Qed.

Lemma fill_scan_endless fuel k : forall up buf out i, at_ up i ->
  fill_scan fuel k up buf out = NoFuel \/
  exists up' t out' i', fill_scan fuel k up buf out = Ret (up', buf ++ [t], out') /\ word t /\ Err up' = None /\ at_ up' i'.
Proof.
  induction k as [|k IH]; intros up buf out i A; [left; reflexivity|].
  destruct (at_next up i fuel A) as (s' & N & A'). cbn [fill_scan]. unfold Scan. rewrite N.
  cbn [bind set_fields ts_token ts_err fst snd andb Token].
  destruct (tspace (f i) || tpunct (f i)) eqn:E.
  - apply (IH _ _ _ (S i)). exact A'.
  - right. do 4 eexists. split; [reflexivity|]. split; [apply word_spec, E|]. split; [reflexivity|]. exact A'.
Qed.

Lemma fill_words_endless fuel k : forall wc up buf i, at_ up i ->
  fill_words fuel k mw wc up buf = NoFuel \/
  exists up' add i', fill_words fuel k mw wc up buf = Ret (None, up', buf ++ add) /\ at_ up' i'.
Proof.
  induction k as [|k IH]; intros wc up buf i A; cbn [fill_words].
  - destruct (Nat.ltb wc mw); [left; reflexivity|]. right. exists up, [], i. rewrite app_nil_r. auto.
  - destruct (Nat.ltb wc mw); [|right; exists up, [], i; rewrite app_nil_r; auto].
    destruct (at_next up i fuel A) as (s' & -> & A'). cbn [bind].
    destruct (tpunct (f i)); [right; exists s', [f i], (S i); auto|].
    assert (G : forall wc', fill_words fuel k mw wc' s' (q_push buf [f i]) = NoFuel \/
      exists up' add i', fill_words fuel k mw wc' s' (q_push buf [f i]) = Ret (None, up', buf ++ add) /\ at_ up' i').
    { intros wc'. destruct (IH wc' s' (q_push buf [f i]) (S i) A') as [E|(up' & add & i' & E & A2)]; [left; exact E|right].
      exists up', (f i :: add), i'. unfold q_push in *. rewrite <- app_assoc in E. auto. }
    destruct (tspace (f i)); apply G.
Qed.

Lemma fill_endless fuel st i : at_ (y_in st) i ->
  fill fuel mw st = NoFuel \/
  exists up' t r out' i', fill fuel mw st = Ret (None, mkSyn up' (t :: r) out') /\ word t /\ at_ up' i'.
Proof.
  intros A. destruct st as [up buf out]. unfold fill. cbn [y_in y_buf y_out] in *.
  destruct (lead_loop_spec buf out) as (lead & rest & -> & F & R & E). rewrite E.
  assert (Dr : q_drop (lead ++ rest) (length lead) = Ret rest).
  { unfold q_drop. rewrite app_length. destruct (Nat.leb_spec (length lead) (length lead + length rest)); [|lia].
    rewrite skipn_app, skipn_all, Nat.sub_diag. reflexivity. }
  rewrite Dr. cbn [bind]. destruct rest as [|t rest]; cbn [q_len length Nat.eqb].
  - destruct (fill_scan_endless fuel fuel up [] (out ++ lead) i A) as [->|(up' & t & out' & i' & -> & Wt & Er & A')]; [left; reflexivity|].
    cbn [bind]. rewrite Er.
    destruct (fill_words_endless fuel fuel (length (filter (fun t => negb (tpunct t) && negb (tspace t)) ([] ++ [t]))) up' ([] ++ [t]) i' A')
      as [Ew|(up2 & add & i2 & Ew & A2)]; rewrite Ew; [left; reflexivity|].
    right. cbn [bind app]. exists up2, t, add, out', i2. split; [reflexivity|]. split; [exact Wt|exact A2].
  - destruct (fill_words_endless fuel fuel (length (filter (fun t => negb (tpunct t) && negb (tspace t)) (t :: rest))) up (t :: rest) i A)
      as [Ew|(up2 & add & i2 & Ew & A2)]; cbn [bind]; rewrite Ew; [left; reflexivity|].
    right. cbn [bind app]. do 5 eexists. split; [reflexivity|]. split; [apply word_spec, (R t rest eq_refl)|exact A2].
Qed.

Lemma loop_endless fuel k : forall st i, at_ (y_in st) i -> syn_loop U (mkBuilt (Some tr) mw) fuel k st = NoFuel.
Proof.
  induction k as [|k IH]; intros st i A; [reflexivity|]. cbn [syn_loop b_maxWords b_trie].
  destruct (fill_endless fuel st i A) as [->|(up' & t & r & out' & i' & -> & Wt & A')]; [reflexivity|].
  cbn [bind y_buf q_len length Nat.eqb].
  rewrite (wordrun_window mw (t :: r) Mw); [|intros x y Hx; injection Hx as <- <-; exact Wt|discriminate].
  destruct (window_head mw t r Wt Mw) as (w & Ew). rewrite Ew at 1. cbn [length Nat.eqb].
  pose proof (Search (window mw (t :: r))) as Fi.
  destruct (SearchCanonical U tr (window mw (t :: r))) as [[[|] c] n].
  - destruct Fi as [[K _] _]. pose proof (window_length mw (t :: r)).
    unfold q_drop. destruct (Nat.leb_spec n (length (t :: r))); [|lia]. cbn [bind].
    apply (IH _ i'). exact A'.
  - cbn [q_popto q_pop q_drop length Nat.leb bind skipn]. apply (IH _ i'). exact A'.
Qed.

Lemma syn_endless : Diverges (fun fuel => Next fuel (SynFilter U None (mkBuilt (Some tr) mw) (sequence f))).
Proof.
  intros m. unfold Next, SynFilter, NewTokenStream. cbn [ts_next closure syn_closure].
  unfold syn_next. cbn [y_buf q_len q_new length Nat.eqb negb y_out q_any Nat.ltb Nat.leb].
  rewrite (loop_endless m m _ 0); [reflexivity|]. reflexivity.
Qed.
End Endless.

Lemma C41_synonyms_lemma U scan ms ic ig D b : scanner_ok scan -> uIsSpace U 44 = false ->
  dictionary_of (key_tokens U scan) ms D -> built_from U scan ms ic ig b ->
  forall f, Diverges (fun fuel => Next fuel (SynFilter U None b (sequence f))).
Proof.
  intros SC CS Dd B f. destruct (built_inv U scan SC CS _ _ _ _ _ Dd B) as (tr & n & -> & S & W).
  eapply syn_endless; eauto. apply W.
Qed.

(** Sigil filters look one token ahead at most. *)
Lemma sigil_pulls U sigil legal (SN : sigil <> EmptyString) n : forall l s s1 prev, length l <= n -> Pulls s l s1 ->
  exists l0 held st, l = l0 ++ held /\ length held <= 1 /\
    PullsX (sigil_next U sigil legal) (mkSS s prev []) (sigil_out U sigil legal false prev l0) st.
Proof.
  induction n as [|n IH]; intros l s s1 prev L P.
  - destruct l; [|cbn in L; lia]. exists [], []. eexists. split; [reflexivity|]. split; [cbn; lia|]. constructor.
  - destruct l as [|c l].
    { exists [], []. eexists. split; [reflexivity|]. split; [cbn; lia|]. constructor. }
    inversion P as [|s0 t s2 l0 s3 N P2]; subst. cbn in L.
    destruct (boundary_ok prev && seqb (tvalue c) sigil) eqn:B.
    + destruct l as [|b l].
      { exists [], [c]. eexists. split; [reflexivity|]. split; [cbn; lia|]. constructor. }
      inversion P2 as [|s0 t s4 l0 s5 N2 P3]; subst. cbn in L.
      destruct (legal (tvalue b)) eqn:Lg.
      * destruct (IH l _ _ (Some (merged U sigil b)) ltac:(lia) P3) as (l0 & held & st & -> & H & X).
        exists (c :: b :: l0), held, st. split; [reflexivity|]. split; [exact H|]. cbn [sigil_out]. rewrite B, Lg.
        eapply PX_cons; [eapply sigil_merge; eassumption|exact X].
      * destruct (IH l _ _ (Some c) ltac:(lia) P3) as (l0 & held & st & -> & H & X).
        exists (c :: b :: l0), held, st. split; [reflexivity|]. split; [exact H|]. cbn [sigil_out]. rewrite B, Lg.
        apply (PullsX_app _ _ [c; b] _ _ _ (sigil_queue U sigil legal _ _ _ _ _ _ N N2 B Lg) X).
    + destruct (IH l _ _ (Some c) ltac:(lia) P2) as (l0 & held & st & -> & H & X).
      exists (c :: l0), held, st. split; [reflexivity|]. split; [exact H|]. cbn [sigil_out]. rewrite B.
      eapply PX_cons; [eapply sigil_plain; eassumption|exact X].
Qed.

Lemma sigil_lookahead U sigil legal : sigil <> EmptyString -> lookahead 1 (Sigil U sigil legal).
Proof.
  intros SN s l s1 P. destruct (sigil_pulls U sigil legal SN _ _ _ _ None (le_n _) P) as (l0 & held & st & E & H & X).
  destruct (PullsX_Pulls _ _ _ _ X None None) as (a & b & Y). exists l0, held. do 2 eexists.
  split; [exact E|]. split; [exact H|]. split; [exact Y|]. intros s0 Y0. apply Sigil_yields; assumption.
Qed.

Lemma C41_partial_lemma U scan : scanner_ok scan ->
  (forall F, plain_filter U scan F -> lookahead 0 F) /\
  (forall sigil legal, sigil <> EmptyString -> lookahead 1 (Sigil U sigil legal)) /\
  lookahead 1 (Handles U) /\ lookahead 1 (Hashtags U).
Proof.
  intros SC. split.
  - intros F P. destruct (plain_transforms U scan SC F P) as (f & T). eapply transforms_lookahead, T.
  - split; [apply sigil_lookahead|]. split; apply sigil_lookahead; discriminate.
Qed.

(** No look-ahead is enough for a synonyms filter. *)
Lemma C41_refutation U scan ms ic ig D b : scanner_ok scan -> uIsSpace U 44 = false ->
  dictionary_of (key_tokens U scan) ms D -> built_from U scan ms ic ig b ->
  forall n, ~ lookahead n (SynFilter U None b).
Proof.
  intros SC CS Dd B n L. pose (p := mkToken "." true false false).
  pose proof (C41_synonyms_lemma _ _ _ _ _ _ _ SC CS Dd B (fun _ => p)) as Dv.
  destruct (sequence_endless (fun _ => p) (S n)) as (l & s1 & Ll & P).
  assert (A : forall l s i s1, at_ (fun _ => p) s i -> Pulls s l s1 -> Forall (eq p) l).
  { clear. intros l. induction l as [|t l IH]; intros s i s1 A P; [constructor|].
    inversion P as [|s0 t0 s2 l0 s3 [m N] P2]; subst. destruct (at_next (fun _ => p) s i m A) as (s' & E & A').
    rewrite (N m (le_n _)) in E. injection E as -> <-. constructor; [reflexivity|]. eapply IH; eauto. }
  destruct (L _ _ _ P) as (l0 & held & out & w & -> & H & Po & Y0).
  rewrite app_length in Ll. destruct l0 as [|t l0]; [cbn in Ll; lia|].
  pose proof (A _ _ 0 _ eq_refl P) as Fa. inversion Fa as [|t0 r Et _]; subst t0 r. subst t.
  destruct (C39_lemma U scan SC CS _ _ _ _ _ Dd B) as (C1 & _).
  destruct (C1 (source (p :: l0) None) [] p l0 (source [] None) (source l0 None) eq_refl (source_yields _) (source_yields _) (source_yields _))
    as (oa & oc & _ & _ & Y2).
  pose proof (Yields_inj _ _ _ (Y0 _ (source_yields (p :: l0))) Y2) as E.
  inversion Po as [|s0 t0 s2 l2 s3 N P2]; subst; [destruct oa; discriminate|].
  eapply Returns_not_diverges; [exact N|exact Dv].
Qed.

(** ** A concrete dictionary *)

Lemma go_comma : uIsSpace go_unicode 44 = false.
Proof. vm_compute. reflexivity. Qed.

Lemma concrete_built ms ic ig : exists D b, dictionary_of (key_tokens go_unicode words_scan) ms D /\
  built_from go_unicode words_scan ms ic ig b.
Proof.
  destruct (C35_lemma go_unicode words_scan words_scan_ok go_comma ms ic ig) as (D & tr & n & A & B & _ & _); [reflexivity|].
  eauto.
Qed.

(** C40: "ruby-on-rails" is not recognised as "ruby on rails". *)
Definition ror : list (string * string) := [("ruby on rails", "ruby-on-rails")]%string.
Definition so_ignore : list N := [32; 45; 46; 47]%N.

Lemma C40_refutation :
  ~ (forall U scan ms ic ig D b, scanner_ok scan -> uIsSpace U 44 = false -> dictionary_of (key_tokens U scan) ms D ->
     built_from U scan ms ic ig b ->
     forall s l c, l <> [] -> Forall (made U) l -> Yields s l -> means U ic ig D (spelled U ic ig l) c -> c <> EmptyString ->
     exists m, lemma_of U c m /\ Yields (SynFilter U None b s) [m]).
Proof.
  intros H. destruct (concrete_built ror true so_ignore) as (D & b & Dd & B).
  set (l := [tok "ruby"; tok "-"; tok "on"; tok "-"; tok "rails"]%string).
  assert (M : means go_unicode true so_ignore D (spelled go_unicode true so_ignore l) "ruby-on-rails").
  { inversion Dd as [|k c ms lk D1 D2 A E R]; subst. inversion R; subst. rewrite app_nil_r.
    assert (lk = [tok "ruby"; tok " "; tok "on"; tok " "; tok "rails"]%string) as ->.
    { eapply Yields_inj; [exact A|].
      replace [tok "ruby"; tok " "; tok "on"; tok " "; tok "rails"]%string
        with (map (piece_token go_unicode) (seg words_scan "ruby on rails")) by (vm_compute; reflexivity).
      apply TokenizeString_yields; [exact words_scan_ok|reflexivity]. }
    assert (D1 = [([tok "ruby"; tok " "; tok "on"; tok " "; tok "rails"]%string, "ruby-on-rails"%string)]) as ->.
    { eapply entries_of_inj; [exact E|]. exists [[tok "ruby"; tok " "; tok "on"; tok " "; tok "rails"]%string].
      exists [[tok "ruby"; tok " "; tok "on"; tok " "; tok "rails"]%string]. split; [|split; [|reflexivity]].
      - apply Sep_last. intros x Hx C. unfold is_comma in C.
        repeat (destruct Hx as [<-|Hx]; [vm_compute in C; discriminate|]). destruct Hx.
      - constructor; [|constructor]. exists []. split; [reflexivity|]. split; [intros ? []|].
        intros t r Ht. injection Ht as <- _. vm_compute. reflexivity. }
    exists [], [tok "ruby"; tok " "; tok "on"; tok " "; tok "rails"]%string, []. split; [reflexivity|].
    split; [vm_compute; reflexivity|intros ? ? []]. }
  assert (Ml : Forall (made go_unicode) l) by (repeat constructor; vm_compute; reflexivity).
  assert (N1 : l <> []) by discriminate. assert (N2 : "ruby-on-rails"%string <> EmptyString) by discriminate.
  destruct (H _ _ _ _ _ _ _ words_scan_ok go_comma Dd B _ _ _ N1 Ml (source_yields l) M N2) as (m & Lm & Y).
  destruct (C39_lemma _ _ words_scan_ok go_comma _ _ _ _ _ Dd B) as (C1 & _).
  destruct (C1 (source l None) [tok "ruby"%string] (tok "-"%string) [tok "on"; tok "-"; tok "rails"]%string
    (source [tok "ruby"%string] None) (source [tok "on"; tok "-"; tok "rails"]%string None))
    as (oa & oc & _ & _ & Y2); [vm_compute; reflexivity|apply source_yields|apply source_yields|apply source_yields|].
  pose proof (Yields_inj _ _ _ Y Y2) as E. destruct oa as [|x [|y oa]]; cbn [app] in E; try discriminate.
  - injection E as -> _. destruct Lm as (_ & Lm & _). vm_compute in Lm. discriminate.
Qed.

(** C42: punctuation before the error is lost by every synonyms filter, a sigil by every sigil filter. *)
Lemma C42_refutation U scan ms ic ig D b : scanner_ok scan -> uIsSpace U 44 = false ->
  dictionary_of (key_tokens U scan) ms D -> built_from U scan ms ic ig b -> ~ delivers (SynFilter U None b).
Proof.
  intros SC CS Dd B H. pose (p := mkToken "." true false false).
  destruct (H _ _ _ (source_fails [p] "e"%string)) as (o & Fo & Yo).
  pose proof (C42_synonyms_lemma _ _ SC CS _ _ _ _ _ Dd B _ _ _ (source_fails [p] "e"%string)) as F2.
  destruct (Fails_inj _ _ _ _ _ Fo F2) as [-> _].
  destruct (C39_lemma U scan SC CS _ _ _ _ _ Dd B) as (C1 & _).
  destruct (C1 (source [p] None) [] p [] (source [] None) (source [] None) eq_refl (source_yields _) (source_yields _) (source_yields _))
    as (oa & oc & _ & _ & Y2).
  pose proof (Yields_inj _ _ _ (Yo _ (source_yields [p])) Y2) as E. destruct oa; discriminate.
Qed.

Lemma C42_sigil_refutation U sigil legal : sigil <> EmptyString -> ~ delivers (Sigil U sigil legal).
Proof.
  intros SN H. pose (p := mkToken sigil true false false).
  destruct (H _ _ _ (source_fails [p] "e"%string)) as (o & Fo & Yo).
  pose proof (Sigil_fails U sigil legal SN _ _ _ (source_fails [p] "e"%string)) as F2.
  pose proof (Sigil_yields U sigil legal SN _ _ (source_yields [p])) as Y2.
  destruct (Fails_inj _ _ _ _ _ Fo F2) as [-> _].
  pose proof (Yields_inj _ _ _ (Yo _ (source_yields [p])) Y2) as E.
  cbn [sigil_out boundary_ok andb] in E. replace (seqb (tvalue p) sigil) with true in E; [discriminate|].
  symmetry. apply seqb_eq. reflexivity.
Qed.

Lemma C42_partial_lemma U scan : scanner_ok scan ->
  (forall fs, Forall (plain_filter U scan) fs -> delivers (ApplyFilters fs)) /\
  (forall sigil legal, sigil <> EmptyString -> forall s l e, Fails s l e ->
     exists l0 lost o, l = l0 ++ lost /\ (lost = [] \/ exists c, lost = [c] /\ tvalue c = sigil) /\
       Fails (Sigil U sigil legal s) o e /\ joined U sigil legal l0 o).
Proof.
  intros SC. split; [apply chain_delivers, SC|].
  intros sigil legal SN s l e H. destruct (C31_lemma' U sigil legal SN s l) as (_ & K).
  destruct (K e H) as (l0 & lost & o & E & Lo & Fo & J & _). eauto 8.
Qed.

(** ** C30 *)

Lemma C30_refutation :
  ~ (forall U scan, scanner_ok scan -> replaced_are_lemmas (Contractions U scan contraction_mappings)).
Proof.
  intros H. specialize (H go_unicode words_scan words_scan_ok (source [tok "don't"%string] None) [tok "don't"%string]).
  assert (Y : Yields (Contractions go_unicode words_scan contraction_mappings (source [tok "don't"%string] None))
    (flat_map (expand_token go_unicode words_scan contraction_mappings) [tok "don't"%string])).
  { apply Contractions_yields; [exact words_scan_ok|reflexivity|apply source_yields]. }
  specialize (H _ (source_yields _) Y (tok "not"%string)).
  destruct H as [[H|[]]|H]; [|vm_compute in H; discriminate|vm_compute in H; discriminate].
  assert (E : flat_map (expand_token go_unicode words_scan contraction_mappings) [tok "don't"%string]
    = [tok "do"; tok " "; tok "not"]%string) by (vm_compute; reflexivity).
  rewrite E. right; right; left. reflexivity.
Qed.

Lemma mapper_lemmas (f : mapfunc) : (forall t t', f t = Some t' -> t' = t \/ tlemma t' = true) -> (forall t, f t <> None) ->
  replaced_are_lemmas (Mapper [f]).
Proof.
  intros H T s l o Y Yo t Ht.
  destruct (Forall2_exists (maps_to [f]) l) as (l' & F).
  { intros x _. destruct (f x) as [x'|] eqn:E; [exists x'; apply maps_to_single, E|destruct (T x E)]. }
  rewrite (Yields_inj _ _ _ Yo (Mapper_yields _ _ _ _ Y F)) in Ht.
  clear - F Ht H. induction F as [|x x' l l' M F IH]; [destruct Ht|]. destruct Ht as [->|Ht].
  - unfold maps_to in M. cbn in M. injection M as M. destruct (H _ _ M) as [->|L]; [left; left; reflexivity|right; exact L].
  - destruct (IH Ht) as [I|L]; [left; right; exact I|right; exact L].
Qed.

Lemma joined_lemmas U sigil legal l o : joined U sigil legal l o -> forall t, In t o -> In t l \/ tlemma t = true.
Proof.
  induction 1 as [|t l o J IH|c b m l o Ec Lb Lm J IH]; intros x Hx; [destruct Hx| |].
  - destruct Hx as [<-|Hx]; [left; left; reflexivity|]. destruct (IH _ Hx) as [I|L]; [left; right; exact I|auto].
  - destruct Hx as [<-|Hx]; [right; apply Lm|]. destruct (IH _ Hx) as [I|L]; [left; right; right; exact I|auto].
Qed.

Lemma rewrites_lemmas U ic ig D n l o : rewrites U ic ig D n l o -> forall t, In t o -> In t l \/ tlemma t = true.
Proof.
  induction 1 as [|t l o Hw R IH|t l o Hw NM R IH|t l k c g o Hw L G R IH]; intros x Hx; [destruct Hx| | |].
  - destruct Hx as [<-|Hx]; [left; left; reflexivity|]. destruct (IH _ Hx) as [I|Lx]; [left; right; exact I|auto].
  - destruct Hx as [<-|Hx]; [left; left; reflexivity|]. destruct (IH _ Hx) as [I|Lx]; [left; right; exact I|auto].
  - apply in_app_or in Hx. destruct Hx as [Hx|Hx].
    + destruct G as [[_ ->]|(m & (_ & Lm & _) & ->)]; [destruct Hx|]. destruct Hx as [<-|[]]. auto.
    + destruct (IH _ Hx) as [I|Lx]; [left|auto]. rewrite <- (firstn_skipn k (t :: l)). apply in_or_app. right. exact I.
Qed.

Lemma sigil_lemmas U sigil legal : sigil <> EmptyString -> replaced_are_lemmas (Sigil U sigil legal).
Proof.
  intros SN s l o Y Yo. destruct (C31_lemma' U sigil legal SN s l) as (A & _).
  destruct (A Y) as (o' & Y' & J & _). rewrite (Yields_inj _ _ _ Yo Y'). apply (joined_lemmas _ _ _ _ _ J).
Qed.

Lemma C30_partial_lemma U scan : scanner_ok scan ->
  replaced_are_lemmas (Fold U) /\
  (forall stem, (forall v, stem v true = EmptyString -> v = EmptyString) -> replaced_are_lemmas (Stemmer U stem)) /\
  (forall isNormal normalize, (forall v, isNormal v = false -> normalize v <> EmptyString) ->
     replaced_are_lemmas (Norm U isNormal normalize)) /\
  (forall sigil legal, sigil <> EmptyString -> replaced_are_lemmas (Sigil U sigil legal)) /\
  (uIsSpace U 44 = false -> forall ms ic ig D b, dictionary_of (key_tokens U scan) ms D -> built_from U scan ms ic ig b ->
     replaced_are_lemmas (SynFilter U None b)).
Proof.
  intros SC. split; [|split; [|split; [|split]]].
  - apply mapper_lemmas.
    + intros t t'. unfold folder. destruct (FoldString (tvalue t)) as [v [|]]; [|intros E; injection E as <-; auto].
      intros E. right. destruct (NewToken_value _ _ _ _ E) as (_ & V & _). exact V.
    + intros t. destruct (folder_total U t) as (t' & M & _). unfold maps_to in M. cbn in M. congruence.
  - intros stem NE. apply mapper_lemmas.
    + intros t t'. unfold stem_token. destruct (tpunct t || tspace t); [intros E; injection E as <-; auto|].
      destruct (seqb (stem (tvalue t) true) (tvalue t)); [intros E; injection E as <-; auto|].
      intros E. right. destruct (NewToken_value _ _ _ _ E) as (_ & V & _). exact V.
    + intros t. unfold stem_token. destruct (tpunct t || tspace t); [discriminate|].
      destruct (seqb (stem (tvalue t) true) (tvalue t)) eqn:E; [discriminate|].
      destruct (NewToken_cons U (stem (tvalue t) true) true) as (t' & ->); [|discriminate].
      intros C. apply not_true_iff_false in E. apply E, seqb_eq. rewrite C. symmetry. auto.
  - intros isNormal normalize NE. apply mapper_lemmas.
    + intros t t'. unfold norm_token. destruct (isNormal (tvalue t)); [intros E; injection E as <-; auto|].
      intros E. right. destruct (NewToken_value _ _ _ _ E) as (_ & V & _). exact V.
    + intros t. unfold norm_token. destruct (isNormal (tvalue t)) eqn:E; [discriminate|].
      destruct (NewToken_cons U (normalize (tvalue t)) true) as (t' & ->); [auto|discriminate].
  - intros sigil legal. apply sigil_lemmas.
  - intros CS ms ic ig D b Dd B s l o Y Yo.
    destruct (C38_lemma U scan SC CS _ _ _ _ _ Dd B) as (n & _ & K). destruct (K _ _ Y) as (o' & R & Y').
    rewrite (Yields_inj _ _ _ Yo Y'). apply (rewrites_lemmas _ _ _ _ _ _ _ R).
Qed.
