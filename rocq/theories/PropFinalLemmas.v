(** * PropFinalLemmas: after an error (C92). *)

From Verif Require Import Base Utf8 Unicode UnicodeData Token Stream StreamSpec ListSpec Queue Tokenizer Filters Ascii Trie Synonyms FilterSpec SynSpec ChainSpec FinalSpec Sources
  StreamProofs TokenProofs FilterProofs TrieProofs SynProofs BuildProofs ChainProofs AsciiProofs PropSynLemmas Words WordSplit WordSplitProofs Scanner ScannerSpec ScannerProofs PropLongLemmas.

(* ------------------------------------------------------------------ *)
(** ** Streams made by NewTokenStream *)

Section Closure.
Context {X : Type} (step : nat -> X -> outcome (result * X)).

Lemma Stuck_closure e (Q : X -> Prop) :
  (forall x, Q x -> exists o x', Steps step x (o, Some e) x' /\ Q x') -> forall tok err x, Q x -> Stuck e (closure step tok err x).
Proof.
  intros H. cofix IH. intros tok err x Hx. destruct (H x Hx) as (o & x' & S & Q').
  exact (Stuck_intro e _ o _ (Nexts_closure step tok err _ _ _ S) (IH _ _ x' Q')).
Qed.

Lemma FFG_closure tok err e (Q : X -> Prop) x l x' : EmitsX step x l (Some e) x' ->
  (forall x, Q x -> exists o x', Steps step x (o, Some e) x' /\ Q x') -> Q x' -> FailsForGood (closure step tok err x) l e.
Proof.
  intros E H Hq. destruct (EmitsX_Emits step _ _ _ _ E tok err) as (t & r & A). eexists. split; [exact A|]. exact (Stuck_closure e Q H _ _ _ Hq).
Qed.

End Closure.

Lemma Emits_last_inj s l e s1 : Emits s l e s1 -> forall l' e' s2, Emits s l' e' s2 -> s1 = s2.
Proof.
  induction 1 as [s s' N|s o e s' N|s t s1 l e s2 N E IH]; intros l' e' s3 E'; inversion E' as [? ? N'|? ? ? ? N'|? ? ? ? ? ? N' E2]; subst;
    destruct (Nexts_inj _ _ _ _ _ N N') as [Er Es]; try discriminate; subst; try reflexivity.
  injection Er as <-. exact (IH _ _ _ E2).
Qed.

Lemma Stuck_inj e1 e2 s : Stuck e1 s -> Stuck e2 s -> e1 = e2.
Proof. intros [o s1 N _] [o' s2 N' _]. destruct (Nexts_inj _ _ _ _ _ N N') as [[= _ ->] _]. reflexivity. Qed.

Lemma Stuck_Emits e s l x s' : Stuck e s -> Emits s l x s' -> l = [] /\ x = Some e.
Proof. intros [o s1 N _] E. inversion E as [? ? N'|? ? ? ? N'|? ? ? ? ? ? N' E2]; subst; destruct (Nexts_inj _ _ _ _ _ N N') as [[=] _]; subst; auto. Qed.

Lemma Stuck_fields e s s1 : ts_next s = ts_next s1 -> Stuck e s -> Stuck e s1.
Proof. intros H [o s' N S]. refine (Stuck_intro e _ o s' _ S). destruct N as [n N]. exists n. intros m Hm. specialize (N m Hm). unfold Next in *. rewrite <- H. exact N. Qed.

Lemma FFG_cons s t l e : FailsForGood s (t :: l) e -> exists s1, Nexts s (Some t, None) s1 /\ FailsForGood s1 l e.
Proof. intros (s' & E & K). inversion E; subst. eexists. split; [eassumption|]. exists s'. auto. Qed.
Lemma FFG_nil s e : FailsForGood s [] e -> exists o s1, Nexts s (o, Some e) s1 /\ Stuck e s1.
Proof. intros (s' & E & K). inversion E; subst. eauto. Qed.
Lemma FFG_fields s s1 l e : ts_next s = ts_next s1 -> FailsForGood s l e -> FailsForGood s1 l e.
Proof. intros H (s' & E & K). exists s'. split; [eapply Emits_fields; eauto|exact K]. Qed.

Lemma source_ffg l e : FailsForGood (source l (Some e)) l e.
Proof.
  assert (E : EmitsX (source_next (Some e)) l l (Some e) []).
  { induction l; [eapply EX_err|eapply EX_cons; [|eassumption]]; apply Returns_ret. }
  refine (FFG_closure _ None None e (fun x => x = []) _ _ _ E _ eq_refl). intros x ->. exists None, []. split; [apply Returns_ret|reflexivity].
Qed.

(* ------------------------------------------------------------------ *)
(** ** The filters without a buffer, and sigils *)

Section Plain.
Variable U : unicode.
Variable scan : oracle.
Hypothesis SC : scanner_ok scan.

Lemma where_final {P} (pred : P -> token -> bool * P) p s l e : FailsForGood s l e ->
  exists o, FailsForGood (NewTokenStream (where_next pred) (p, s)) o e.
Proof.
  intros (s' & E & K). eexists. refine (FFG_closure _ None None e (fun x => Stuck e (snd x)) _ _ _ (WEmits_EmitsX _ _ _ _ _ (where_wemits pred _ _ _ _ E p)) _ K).
  intros [p1 s1] [o s2 N K2]. exists None, (p1, s2). split; [|exact K2]. apply WR_Steps. eapply WR_err. exact N.
Qed.

Lemma mapper_final fs : (forall f t, In f fs -> f t <> None) -> final_errors (Mapper fs).
Proof.
  intros H s l e (s' & E & K). destruct (total_maps fs H l) as (l' & F). exists l'.
  refine (FFG_closure _ None None e (Stuck e) _ _ _ (mapper_emits fs _ _ _ _ E _ F) _ K).
  intros s1 [o s2 N K2]. exists None, s2. split; [|exact K2]. exact (mapper_err fs _ _ _ _ N).
Qed.

Lemma stop_final words ic : final_errors (Stopwords U words ic).
Proof.
  intros s l e (s' & E & K). eexists. refine (FFG_closure _ None None e (Stuck e) _ _ _ (stop_emits U words ic _ _ _ _ E) _ K).
  intros s1 [o s2 [n N] K2]. exists None, s2. split; [|exact K2]. exists (S n). intros m Hm. destruct m as [|m]; [lia|]. cbn [stop_loop]. rewrite N by lia. destruct o; reflexivity.
Qed.

Lemma contr_final table : (forall k v, In (k, v) table -> serr (scan (mkReader v None)) = None) -> final_errors (Contractions U scan table).
Proof.
  intros H s l e (s' & E & K). eexists.
  refine (FFG_closure _ None None e (fun st => exists s, st = mkCS s [] /\ Stuck e s) _ _ _ (contr_emits U scan table SC H _ _ _ _ E) _ (ex_intro _ _ (conj eq_refl K))).
  intros x (s1 & -> & [o s2 [n N] K2]). exists None, (mkCS s2 []). split; [|eauto]. exists n. intros m Hm. unfold contractions_next.
  cbn [c_out q_any q_len length Nat.ltb Nat.leb c_in]. rewrite N by lia. destruct o; reflexivity.
Qed.

Lemma sigil_final sigil legal : sigil <> EmptyString -> final_errors (Sigil U sigil legal).
Proof.
  intros H s l e (s' & E & K). destruct (sigil_fails_emits U sigil legal H (length l) l s e s' None (le_n _) E) as (p & X). eexists.
  refine (FFG_closure _ None None e (fun st => exists s p, st = mkSS s p [] /\ Stuck e s) _ _ _ X _ (ex_intro _ _ (ex_intro _ _ (conj eq_refl K)))).
  intros x (s1 & p1 & -> & [o s2 N K2]). exists None. eexists. split; [exact (sigil_err U sigil legal s1 p1 o e s2 N)|eauto].
Qed.

Lemma plain_final F : plain_filter U scan F -> final_errors F.
Proof.
  destruct 1.
  - intros s l e. apply (where_final (stateless pred) tt).
  - intros s l e. apply where_final.
  - intros s l e. apply where_final.
  - intros s l e. apply where_final.
  - apply stop_final.
  - now apply mapper_final.
  - apply mapper_final. intros f t [<-|[]]. destruct (folder_total U t) as (t' & M & _). unfold maps_to in M. cbn in M. congruence.
  - apply mapper_final. intros f t [<-|[]]. unfold stem_token. destruct (tpunct t || tspace t); [discriminate|].
    destruct (seqb (stem (tvalue t) true) (tvalue t)) eqn:E; [discriminate|].
    destruct (NewToken_cons U (stem (tvalue t) true) true) as (t' & ->); [|discriminate].
    intros C. apply not_true_iff_false in E. apply E, seqb_eq. rewrite C. symmetry. auto.
  - apply mapper_final. intros f t [<-|[]]. unfold norm_token. destruct (isNormal (tvalue t)) eqn:E; [discriminate|].
    destruct (NewToken_cons U (normalize (tvalue t)) true) as (t' & ->); [auto|discriminate].
  - now apply contr_final.
Qed.

Lemma chain_final fs : Forall (fun F => plain_filter U scan F \/ (exists sigil legal, sigil <> EmptyString /\ F = Sigil U sigil legal)) fs ->
  final_errors (ApplyFilters fs).
Proof.
  intros H. unfold final_errors, ApplyFilters. induction H as [|F fs HF _ IH]; intros s l e K; [exists l; exact K|]. cbn [fold_left].
  assert (FE : final_errors F) by (destruct HF as [HF|(sg & lg & Ns & ->)]; [now apply plain_final|now apply sigil_final]).
  destruct (FE s l e K) as (o & K'). exact (IH _ _ _ K').
Qed.
End Plain.

(* ------------------------------------------------------------------ *)
(** ** The synonyms filter *)

Lemma fill_scan_fails l e : forall up buf out, FailsForGood up l e ->
  exists up' buf' out', Returns2 (fun fuel k => fill_scan fuel k up buf out) (up', buf', out') /\
  ((exists lead t l', l = lead ++ t :: l' /\ Forall (fun t => nonword t = true) lead /\ nonword t = false /\
      buf' = buf ++ [t] /\ out' = out ++ lead /\ FailsForGood up' l' e /\ Err up' = None) \/
   (Forall (fun t => nonword t = true) l /\ buf' = buf /\ out' = out ++ l /\ Err up' = Some e /\ Stuck e up')).
Proof.
  induction l as [|t l IH]; intros up buf out S.
  - destruct (FFG_nil _ _ S) as (o & s1 & N & K). destruct (Scan_err _ _ _ _ N) as [n Hn].
    do 3 eexists. split.
    + eapply (Returns2_step _ _ _ n); [|apply Returns2_const].
      intros fuel k Hf. cbn [fill_scan]. rewrite Hn by lia. cbn. reflexivity.
    + right. rewrite app_nil_r. split; [constructor|]. split; [reflexivity|]. split; [reflexivity|]. split; [reflexivity|]. eapply Stuck_fields; [|exact K]. reflexivity.
  - destruct (FFG_cons _ _ _ _ S) as (s1 & N & S1). destruct (Scan_token _ _ _ N) as [n Hn].
    assert (S1' : FailsForGood (set_fields (Some t, None) s1) l e) by (eapply FFG_fields; [|exact S1]; reflexivity).
    destruct (tspace t || tpunct t) eqn:E.
    + destruct (IH (set_fields (Some t, None) s1) buf (q_push out [t]) S1') as (up' & buf' & out' & R & C).
      exists up', buf', out'. split.
      * eapply (Returns2_step _ _ _ n); [|exact R]. intros fuel k Hf. cbn [fill_scan]. rewrite Hn by lia.
        cbn [bind Token ts_token set_fields fst]. rewrite E. reflexivity.
      * destruct C as [(lead & x & l' & -> & F & Nx & -> & -> & Sx & Ex)|(F & -> & -> & Ee & Se)].
        -- left. exists (t :: lead), x, l'. unfold q_push. rewrite <- app_assoc. repeat split; auto.
        -- right. unfold q_push. rewrite <- app_assoc. split; [constructor; [exact E|exact F]|]. auto.
    + do 3 eexists. split.
      * eapply (Returns2_step _ _ _ n); [|apply Returns2_const].
        intros fuel k Hf. cbn [fill_scan]. rewrite Hn by lia. cbn [bind Token ts_token set_fields fst]. rewrite E. reflexivity.
      * left. exists [], t, l. rewrite app_nil_r. split; [reflexivity|]. split; [constructor|].
        repeat split; auto.
Qed.

Lemma fill_words_fails mw l e : forall up buf wc, FailsForGood up l e ->
  exists err up' buf', Returns2 (fun fuel k => fill_words fuel k mw wc up buf) (err, up', buf') /\ exists add, buf' = buf ++ add /\
  ((err = None /\ exists l', l = add ++ l' /\ FailsForGood up' l' e /\ (has_punct add \/ mw <= wc + words_in add)) \/
   (err = Some e /\ wc < mw /\ Stuck e up')).
Proof.
  induction l as [|t l IH]; intros up buf wc S; (destruct (Nat.ltb_spec wc mw) as [L|L];
    [|exists None, up, buf; split;
      [exists 0; intros fuel k _ _; apply Nat.ltb_ge in L; destruct k; cbn [fill_words]; rewrite L; reflexivity|];
      exists []; rewrite app_nil_r; split; [reflexivity|]; left; split; [reflexivity|]; eexists; split; [reflexivity|]; split; [exact S|]; right; cbn; lia]).
  - destruct (FFG_nil _ _ S) as (o & s1 & [n Hn] & K). do 3 eexists. split.
    + eapply (Returns2_step _ _ _ n); [|apply Returns2_const].
      intros fuel k Hf. cbn [fill_words]. apply Nat.ltb_lt in L. rewrite L. rewrite Hn by lia. cbn. destruct o; reflexivity.
    + exists []. rewrite app_nil_r. split; [reflexivity|]. right. auto.
  - destruct (FFG_cons _ _ _ _ S) as (s1 & [n Hn] & S1).
    assert (G : forall wc', (tspace t = true -> wc' = wc) -> (tspace t = false -> wc' = Datatypes.S wc) -> tpunct t = false ->
      exists err up' buf', Returns2 (fun fuel k => fill_words fuel k mw wc up buf) (err, up', buf') /\ exists add, buf' = buf ++ add /\
      ((err = None /\ exists l', t :: l = add ++ l' /\ FailsForGood up' l' e /\ (has_punct add \/ mw <= wc + words_in add)) \/
       (err = Some e /\ wc < mw /\ Stuck e up'))).
    { intros wc' W1 W2 P. destruct (IH s1 (q_push buf [t]) wc' S1) as (err & up' & buf' & R & add & -> & C).
      exists err, up', ((q_push buf [t]) ++ add). split.
      - eapply (Returns2_step _ _ _ n); [|exact R]. intros fuel k Hf. cbn [fill_words]. apply Nat.ltb_lt in L. rewrite L.
        rewrite Hn by lia. cbn [bind]. rewrite P. destruct (tspace t); [rewrite (W1 eq_refl)|rewrite (W2 eq_refl)]; reflexivity.
      - exists (t :: add). unfold q_push. rewrite <- app_assoc. split; [reflexivity|]. destruct C as [(-> & l' & -> & S' & C)|(-> & _ & C)]; [left|right; auto].
        split; [reflexivity|]. exists l'. split; [reflexivity|]. split; [exact S'|].
        destruct C as [(x & I & Q)|C]; [left; exists x; split; [right; exact I|exact Q]|].
        right. rewrite words_in_cons. unfold nonword. rewrite P. destruct (tspace t); cbn [orb]; [rewrite (W1 eq_refl) in C|rewrite (W2 eq_refl) in C]; lia. }
    destruct (tpunct t) eqn:P.
    + do 3 eexists. split.
      * eapply (Returns2_step _ _ _ n); [|apply Returns2_const].
        intros fuel k Hf. cbn [fill_words]. apply Nat.ltb_lt in L. rewrite L. rewrite Hn by lia. cbn. rewrite P. reflexivity.
      * exists [t]. split; [reflexivity|]. left. split; [reflexivity|]. exists l. split; [reflexivity|]. split; [exact S1|].
        left. exists t. split; [left; reflexivity|exact P].
    + destruct (tspace t) eqn:Sp; [apply (G wc)|apply (G (Datatypes.S wc))]; congruence.
Qed.

Lemma fill_fails mw st l e : FailsForGood (y_in st) l e -> 1 <= mw ->
  exists err st', Returns (fun fuel => fill fuel mw st) (err, st') /\
  ((err = None /\ exists lead l', y_buf st ++ l = lead ++ y_buf st' ++ l' /\
      Forall (fun t => nonword t = true) lead /\ y_out st' = y_out st ++ lead /\ FailsForGood (y_in st') l' e /\
      (forall t r, y_buf st' = t :: r -> word t) /\ y_buf st' <> [] /\
      (has_punct (y_buf st') \/ mw <= words_in (y_buf st'))) \/
   (err = Some e /\ Stuck e (y_in st') /\
      ((y_buf st' = [] /\ Forall (fun t => nonword t = true) (y_buf st ++ l) /\ y_out st' = y_out st ++ y_buf st ++ l) \/
       (2 <= mw /\ y_buf st' <> [])))).
Proof.
  intros S M. destruct st as [up buf out]. cbn [y_in y_buf y_out] in *.
  destruct (lead_loop_spec buf out) as (lead & rest & -> & F & R & E).
  assert (Dr : q_drop (lead ++ rest) (length lead) = Ret rest).
  { unfold q_drop. rewrite app_length. destruct (Nat.leb_spec (length lead) (length lead + length rest)); [|lia].
    rewrite skipn_app, skipn_all, Nat.sub_diag. reflexivity. }
  assert (W1 : forall t r, nonword t = false -> 1 <= words_in (t :: r)).
  { intros t r H. rewrite words_in_cons, H. lia. }
  destruct rest as [|t rest].
  - destruct (fill_scan_fails l e up [] (out ++ lead) S) as (up1 & buf1 & out1 & R1 & C1).
    apply Returns2_diag in R1. destruct R1 as [n1 H1].
    destruct C1 as [(lead2 & t & l' & -> & F2 & Nt & -> & -> & S1 & E1)|(F2 & -> & -> & E1 & S1)].
    + cbn [app] in *.
      destruct (fill_words_fails mw l' e up1 [t] (words_in [t]) S1) as (err & up2 & buf2 & R2 & add & -> & C2).
      apply Returns2_diag in R2. destruct R2 as [n2 H2].
      exists err, (mkSyn up2 ([t] ++ add) ((out ++ lead) ++ lead2)). split.
      * exists (Nat.max n1 n2). intros m Hm. unfold fill. cbn [y_buf y_out y_in]. rewrite E, Dr.
        cbn [bind q_len length Nat.eqb]. rewrite H1 by lia. cbn [bind]. rewrite E1. rewrite words_in_model.
        rewrite H2 by lia. reflexivity.
      * destruct C2 as [(-> & l2 & -> & S2 & C2)|(-> & L2 & K)].
        2:{ right. split; [reflexivity|]. split; [exact K|]. right. split; [pose proof (W1 t [] Nt); lia|discriminate]. }
        left. split; [reflexivity|]. exists (lead ++ lead2), l2. cbn [y_buf y_out y_in].
        split; [rewrite app_nil_r; rewrite <- app_assoc; f_equal; f_equal; reflexivity|].
        split; [apply Forall_app; split; assumption|]. split; [rewrite app_assoc; reflexivity|]. split; [exact S2|].
        split; [intros x r Hx; injection Hx as <- _; apply word_spec, Nt|]. split; [discriminate|].
        destruct C2 as [(x & I & Q)|C2]; [left; exists x; split; [right; exact I|exact Q]|].
        right. rewrite words_in_app. exact C2.
    + exists (Some e), (mkSyn up1 [] ((out ++ lead) ++ l)). split.
      * exists n1. intros m Hm. unfold fill. cbn [y_buf y_out y_in]. rewrite E, Dr.
        cbn [bind q_len length Nat.eqb]. rewrite H1 by lia. cbn [bind]. rewrite E1. reflexivity.
      * right. split; [reflexivity|]. split; [exact S1|]. left. cbn [y_buf y_out]. split; [reflexivity|]. rewrite app_nil_r.
        split; [apply Forall_app; split; assumption|]. rewrite app_assoc. reflexivity.
  - destruct (fill_words_fails mw l e up (t :: rest) (words_in (t :: rest)) S) as (err & up2 & buf2 & R2 & add & -> & C2).
    apply Returns2_diag in R2. destruct R2 as [n2 H2].
    exists err, (mkSyn up2 ((t :: rest) ++ add) (out ++ lead)). split.
    + exists n2. intros m Hm. unfold fill. cbn [y_buf y_out y_in]. rewrite E, Dr.
      cbn [bind q_len length Nat.eqb]. rewrite words_in_model. rewrite H2 by lia. reflexivity.
    + pose proof (R t rest eq_refl) as Nt. destruct C2 as [(-> & l2 & -> & S2 & C2)|(-> & L2 & K)].
      2:{ right. split; [reflexivity|]. split; [exact K|]. right. split; [pose proof (W1 t rest Nt); lia|discriminate]. }
      left. split; [reflexivity|]. exists lead, l2. cbn [y_buf y_out y_in].
      split; [rewrite !app_assoc; reflexivity|]. split; [exact F|]. split; [reflexivity|]. split; [exact S2|].
      split; [intros x r Hx; injection Hx as <- _; apply word_spec, Nt|]. split; [discriminate|].
      destruct C2 as [(x & I & Q)|C2]; [left; exists x; split; [apply in_or_app; right; exact I|exact Q]|].
      right. rewrite words_in_app. exact C2.
Qed.

Section Loop.
Variable U : unicode.
Variable ic : bool.
Variable ig : list N.
Variable D : dictionary.
Variable tr : trie.
Variable mw : nat.
Hypothesis Search : forall l, finds U ic ig D l (SearchCanonical U tr l).
Hypothesis Mw : 1 <= mw.

Let b := mkBuilt (Some tr) mw.

Lemma loop_fails n : forall st l e, length (y_buf st ++ l) < n -> FailsForGood (y_in st) l e ->
  exists st', Returns2 (fun fuel k => syn_loop U b fuel k st) (Some e, st') /\ Stuck e (y_in st') /\
  ((y_buf st' = [] /\ exists o, rewrites U ic ig D mw (y_buf st ++ l) o /\ y_out st' = y_out st ++ o) \/ (2 <= mw /\ y_buf st' <> [])).
Proof.
  induction n as [|n IH]; intros st l e Len S; [lia|].
  destruct (fill_fails mw st l e S Mw) as (err & st1 & [n1 R1] & C).
  destruct C as [(-> & lead & l1 & Eq & F & Eo & S1 & W & Em & Full)|(-> & K & C)].
  2:{ exists st1. split.
      - eapply (Returns2_step _ _ _ n1); [|apply Returns2_const].
        intros fuel k Hf. cbn [syn_loop]. change (b_maxWords b) with mw. rewrite R1 by lia. reflexivity.
      - split; [exact K|]. destruct C as [(B & F & Eo)|C]; [left|right; exact C]. split; [exact B|]. exists (y_buf st ++ l). split; [|exact Eo].
        rewrite <- (app_nil_r (y_buf st ++ l)). apply (rewrites_lead U ic ig D mw); [exact F|constructor]. }
  destruct (y_buf st1) as [|t rest] eqn:Eb; [congruence|].
  assert (Wt : word t) by (eapply W; reflexivity).
  assert (Wr : wordrun mw (t :: rest) = (None, window mw (t :: rest)))
    by (apply wordrun_window; [exact Mw|intros x r Hx; eapply W, Hx|discriminate]).
  assert (We : window mw ((t :: rest) ++ l1) = window mw (t :: rest)) by (apply window_app; exact Full).
  destruct (window_head mw t rest Wt Mw) as (w & Ew).
  pose proof (Search (window mw (t :: rest))) as Fi.
  destruct (SearchCanonical U tr (window mw (t :: rest))) as [[found c] k] eqn:Es.
  destruct found.
  - cbn [finds] in Fi. pose proof Fi as [[K _] _].
    destruct (canonical_push U c) as (g & G & Po).
    assert (K2 : k <= length (t :: rest)) by (pose proof (window_length mw (t :: rest)); lia).
    assert (L2 : length (y_buf (mkSyn (y_in st1) (skipn k (t :: rest)) (y_out st1 ++ g)) ++ l1) < n).
    { cbn [y_buf]. rewrite app_length, skipn_length. rewrite Eq in Len. rewrite !app_length in Len. lia. }
    destruct (IH (mkSyn (y_in st1) (skipn k (t :: rest)) (y_out st1 ++ g)) l1 e L2 S1) as (st2 & R2 & K3 & C2).
    exists st2. split.
    + eapply (Returns2_step _ _ _ n1); [|exact R2].
      intros fuel k0 Hf. cbn [syn_loop]. change (b_maxWords b) with mw. change (b_trie b) with (Some tr).
      rewrite R1 by lia. cbn [bind]. rewrite Eb. cbn [q_len length Nat.eqb]. rewrite Wr.
      rewrite Ew at 1. cbn [length Nat.eqb]. rewrite Es. rewrite (Po (y_out st1)).
      unfold q_drop. destruct (Nat.leb_spec k (length (t :: rest))); [|lia]. reflexivity.
    + split; [exact K3|]. destruct C2 as [(B2 & o & Rw & Eo2)|C2]; [left|right; exact C2].
      split; [exact B2|]. cbn [y_buf y_out] in *. exists (lead ++ g ++ o). split.
      * rewrite Eq. apply (rewrites_lead U ic ig D mw); [exact F|]. cbn [app].
        eapply RW_replace; [exact Wt| |exact G|].
        -- change (t :: rest ++ l1) with ((t :: rest) ++ l1). rewrite We. exact Fi.
        -- change (t :: rest ++ l1) with ((t :: rest) ++ l1). rewrite skipn_app.
           replace (k - length (t :: rest)) with 0 by lia. exact Rw.
      * rewrite Eo2, Eo, !app_assoc. reflexivity.
  - destruct Fi as (-> & -> & Fi).
    assert (L2 : length (y_buf (mkSyn (y_in st1) rest (y_out st1 ++ [t])) ++ l1) < n).
    { cbn [y_buf]. rewrite Eq in Len. rewrite !app_length in *. cbn [length] in Len. lia. }
    destruct (IH (mkSyn (y_in st1) rest (y_out st1 ++ [t])) l1 e L2 S1) as (st2 & R2 & K3 & C2).
    exists st2. split.
    + eapply (Returns2_step _ _ _ n1); [|exact R2].
      intros fuel k0 Hf. cbn [syn_loop]. change (b_maxWords b) with mw. change (b_trie b) with (Some tr).
      rewrite R1 by lia. cbn [bind]. rewrite Eb. cbn [q_len length Nat.eqb]. rewrite Wr.
      rewrite Ew at 1. cbn [length Nat.eqb]. rewrite Es. reflexivity.
    + split; [exact K3|]. destruct C2 as [(B2 & o & Rw & Eo2)|C2]; [left|right; exact C2].
      split; [exact B2|]. cbn [y_buf y_out] in *. exists (lead ++ t :: o). split.
      * rewrite Eq. apply (rewrites_lead U ic ig D mw); [exact F|]. cbn [app]. apply RW_keep; [exact Wt| |exact Rw].
        change (t :: rest ++ l1) with ((t :: rest) ++ l1). rewrite We. exact Fi.
      * rewrite Eo2, Eo, <- !app_assoc. reflexivity.
Qed.

Lemma syn_stuck e st : y_buf st = [] -> y_out st = [] -> Stuck e (y_in st) ->
  exists st', Steps (syn_next U b) st (None, Some e) st' /\ y_buf st' = [] /\ y_out st' = [] /\ Stuck e (y_in st').
Proof.
  intros B O [o s' N K]. destruct st as [up buf out]. cbn [y_buf y_out y_in] in *. subst buf out.
  destruct (Scan_err _ _ _ _ N) as [n Hn]. exists (mkSyn (set_fields (o, Some e) s') [] []). split.
  - exists (S n). intros m Hm. destruct m as [|m]; [lia|]. unfold syn_next. cbn [y_buf y_out q_len q_any length Nat.eqb negb Nat.ltb Nat.leb].
    cbn [syn_loop]. unfold fill. cbn [y_buf y_out y_in lead_loop q_drop length Nat.leb bind q_len Nat.eqb skipn]. cbn [fill_scan]. rewrite Hn by lia. reflexivity.
  - split; [reflexivity|]. split; [reflexivity|]. cbn [y_in]. eapply Stuck_fields; [|exact K]. reflexivity.
Qed.

Lemma Syn_after s l e : FailsForGood s l e -> exists s1, Emits (SynFilter U None b s) [] (Some e) s1 /\
  ((exists o, rewrites U ic ig D mw l o /\ FailsForGood s1 o e) \/ (2 <= mw /\ Stuck err_not_empty s1)).
Proof.
  intros Y. destruct (loop_fails (Datatypes.S (length l)) (mkSyn s [] []) l e ltac:(cbn; lia) Y) as (st' & R & K & C).
  apply Returns2_diag in R. destruct R as [n Hn].
  assert (St : Steps (syn_closure U None b) (mkSyn s [] []) (None, Some e) st').
  { exists n. intros m Hm. unfold syn_closure, syn_next. cbn [y_buf y_out q_len q_any length Nat.eqb negb Nat.ltb Nat.leb]. rewrite Hn by lia. reflexivity. }
  destruct (EmitsX_Emits _ _ _ _ _ (EX_err _ _ _ _ _ St) None None) as (tk & er & Em). eexists. split; [exact Em|].
  destruct C as [(B & o & Rw & Eo)|[M2 Nb]].
  - left. exists o. cbn [y_buf y_out app] in *. split; [exact Rw|]. destruct st' as [up buf out]. cbn [y_buf y_out y_in] in *. subst buf out.
    destruct (syn_stuck e (mkSyn up [] []) eq_refl eq_refl K) as (st2 & S2 & Q2).
    refine (FFG_closure (syn_closure U None b) tk er e (fun st => y_buf st = [] /\ y_out st = [] /\ Stuck e (y_in st)) _ o st2 _ _ Q2).
    + rewrite <- (app_nil_r o) at 2. eapply PullsX_EmitsX; [apply (syn_drain U tr mw)|]. eapply EX_err. exact S2.
    + intros x (B1 & O1 & K1). destruct (syn_stuck e x B1 O1 K1) as (x' & S' & Q'). exists None, x'. split; [exact S'|exact Q'].
  - right. split; [exact M2|]. refine (Stuck_closure (syn_closure U None b) err_not_empty (fun st => y_buf st <> []) _ tk er st' Nb).
    intros x Nx. exists None, x. split; [|exact Nx]. exists 0. intros m _. unfold syn_closure, syn_next. destruct (y_buf x); [congruence|]. reflexivity.
Qed.
End Loop.

Section Built.
Variable U : unicode.
Variable scan : oracle.
Hypothesis SC : scanner_ok scan.
Hypothesis CS : uIsSpace U 44 = false.

Lemma C92_syn ms ic ig D b : dictionary_of (key_tokens U scan) ms D -> built_from U scan ms ic ig b ->
  exists n, widest D n /\ forall s l e, FailsForGood s l e ->
  exists s1, Emits (SynFilter U None b s) [] (Some e) s1 /\
    ((exists o, rewrites U ic ig D n l o /\ FailsForGood s1 o e) \/ (2 <= n /\ Stuck err_not_empty s1)).
Proof.
  intros Dd B. destruct (built_inv U scan SC CS _ _ _ _ _ Dd B) as (tr & n & -> & S & W). exists n. split; [exact W|].
  intros s l e Y. exact (Syn_after U ic ig D tr n S (proj1 W) s l e Y).
Qed.

Lemma C92_syn_refuted ms ic ig D b : dictionary_of (key_tokens U scan) ms D -> built_from U scan ms ic ig b -> ~ final_errors (SynFilter U None b).
Proof.
  intros Dd B H. pose (p := mkToken "." true false false). destruct (H _ _ _ (source_ffg [p] "e"%string)) as (o & s2 & E2 & K2).
  destruct (C92_syn _ _ _ _ _ Dd B) as (n & _ & A). destruct (A _ _ _ (source_ffg [p] "e"%string)) as (s1 & E1 & C).
  pose proof (Emits_last_inj _ _ _ _ E1 _ _ _ E2) as <-. destruct C as [(o' & R & s3 & E3 & _)|[_ K]].
  - destruct (Stuck_Emits _ _ _ _ _ K2 E3) as [-> _]. assert (W : ~ word p) by (intros [W _]; discriminate). inversion R; subst; contradiction.
  - pose proof (Stuck_inj _ _ _ K K2). discriminate.
Qed.
End Built.

(* ------------------------------------------------------------------ *)
(** ** The tokenizer *)

Section Tok.
Variable split : string -> bool -> option string.
Hypothesis SO : split_ok split.
Variable start_size max_size : nat.
Variable U : unicode.
Variable rd : io_reader.

Lemma ScanB_false n : forall b b', ScanB start_size max_size split rd n b = Ret (None, b') ->
  berr b' <> None /\ (pend b' = EmptyString \/ (berr b' = Some (RErr err_too_long) /\ max_size <= String.length (pend b'))).
Proof.
  induction n as [|n IH]; intros b b' E; [discriminate|]. cbn [ScanB] in E. cbv zeta in E.
  destruct (if _ || _ then split _ _ else None) as [p|]; [discriminate|]. destruct (berr b) as [er0|] eqn:Eb.
  - injection E as <-. cbn [berr pend]. split; [congruence|now left].
  - set (len := String.length (pend b)) in *. set (start1 := if _ && _ then 0 else start b) in *.
    destruct (Nat.eqb_spec (start1 + len) (blen b)) as [Ef|Ef]; cbn [andb] in E.
    + destruct (Nat.leb_spec max_size (blen b)) as [Lm|Lm].
      * injection E as <-. cbn [berr pend]. split; [discriminate|]. right. split; [reflexivity|]. fold len.
        assert (start1 = 0). { unfold start1 in *. destruct (Nat.ltb_spec 0 (start b)) as [L|L]; [|cbn [andb] in *; lia].
          destruct (Nat.eqb_spec (start b + len) (blen b)); [reflexivity|]. cbn [andb orb] in *. destruct (Nat.ltb (blen b / 2) (start b)); [reflexivity|lia]. }
        lia.
      * destruct (read_loop rd max_empty_reads _ _) as [[x er] r']. exact (IH _ _ E).
    + destruct (read_loop rd max_empty_reads _ _) as [[x er] r']. exact (IH _ _ E).
Qed.

Lemma read_loop_own : reports_own rd -> forall loops room r x er r', read_loop rd loops room r = (x, er, r') -> er <> Some (RErr err_too_long).
Proof.
  intros O. induction loops as [|loops IH]; intros room r x er r'; cbn [read_loop]; destruct (rread rd r room) as [[y e] r1] eqn:E; pose proof (O _ _ _ _ _ E) as Oe;
    (destruct (Nat.ltb room (String.length y)); [intros [= <- <- <-]; discriminate|]); (destruct e; [intros [= <- <- <-]; exact Oe|]);
    (destruct (Nat.ltb 0 (String.length y)); [intros [= <- <- <-]; discriminate|]); [intros [= <- <- <-]; discriminate|].
  apply IH.
Qed.

Lemma ScanB_own n : reports_own rd -> forall b out b', berr b <> Some (RErr err_too_long) -> ScanB start_size max_size split rd n b = Ret (out, b') ->
  match out with Some _ => berr b' <> Some (RErr err_too_long) | None => berr b' = Some (RErr err_too_long) -> max_size <= String.length (pend b') end.
Proof.
  intros O. induction n as [|n IH]; intros b out b' Nb E; [discriminate|]. cbn [ScanB] in E. cbv zeta in E.
  destruct (if _ || _ then split _ _ else None) as [p|]; [injection E as <- <-; exact Nb|]. destruct (berr b) as [er0|] eqn:Eb.
  - injection E as <- <-. cbn [berr]. rewrite ?Eb in *. intros C. congruence.
  - set (len := String.length (pend b)) in *. set (start1 := if _ && _ then 0 else start b) in *.
    destruct (Nat.eqb_spec (start1 + len) (blen b)) as [Ef|Ef]; cbn [andb] in E.
    + destruct (Nat.leb_spec max_size (blen b)) as [Lm|Lm].
      * injection E as <- <-. cbn [berr pend]. intros _. fold len.
        assert (start1 = 0). { unfold start1 in *. destruct (Nat.ltb_spec 0 (start b)) as [L|L]; [|cbn [andb] in *; lia].
          destruct (Nat.eqb_spec (start b + len) (blen b)); [reflexivity|]. cbn [andb orb] in *. destruct (Nat.ltb (blen b / 2) (start b)); [reflexivity|lia]. }
        lia.
      * destruct (read_loop rd max_empty_reads _ _) as [[x er] r'] eqn:Er. apply (read_loop_own O) in Er. exact (IH (mkB _ _ _ _ _) _ _ Er E).
    + destruct (read_loop rd max_empty_reads _ _) as [[x er] r'] eqn:Er. apply (read_loop_own O) in Er. exact (IH (mkB _ _ _ _ _) _ _ Er E).
Qed.

Let next := btokenizer_next start_size max_size split rd U.

Lemma err_state e b : pend b = EmptyString -> berr b = Some (RErr e) ->
  exists b', Steps next b (None, Some e) b' /\ pend b' = EmptyString /\ berr b' = Some (RErr e).
Proof.
  intros Pb Eb. exists (mkB EmptyString 0 (blen b) (berr b) (src b)). split; [|split; [reflexivity|exact Eb]]. exists 1. intros m Hm. destruct m as [|m]; [lia|].
  unfold next, btokenizer_next. cbn [ScanB]. rewrite Pb, Eb. cbn [String.length Nat.ltb Nat.leb orb]. rewrite (split_empty split SO). cbn [bind ErrB berr]. reflexivity.
Qed.

Lemma rest_state e d l : cut_into split d l -> forall b, pend b = d -> berr b = Some (RErr e) ->
  exists b', EmitsX next b (map (piece_token U) l) (Some e) b' /\ pend b' = EmptyString /\ berr b' = Some (RErr e).
Proof.
  induction 1 as [|p d l S C IH]; intros b Pb Eb.
  - destruct (err_state e b Pb Eb) as (b' & St & Q). exists b'. split; [exact (EX_err _ _ _ _ _ St)|exact Q].
  - destruct (split_prefix _ SO _ _ _ S) as (Np & _).
    destruct (IH (mkB (sdrop (String.length p) (pend b)) (start b + String.length p) (blen b) (berr b) (src b))) as (b' & X & Q); cbn [pend berr].
    + rewrite Pb. apply sdrop_app.
    + exact Eb.
    + exists b'. split; [|exact Q]. cbn [map]. eapply EX_cons; [|exact X]. exists 1. intros m Hm. destruct m as [|m]; [lia|].
      unfold next, btokenizer_next. cbn [ScanB]. rewrite Pb, Eb.
      assert (L : Nat.ltb 0 (String.length (p ++ d)%string) = true) by (rewrite slen_app; destruct p; [congruence|reflexivity]). rewrite L. cbn [orb]. rewrite S. cbn [bind].
      rewrite piece_token_ok by exact Np. reflexivity.
Qed.

Lemma tok_after r l e s' : Emits (TokenizeFrom start_size max_size split rd U r) l (Some e) s' ->
  exists l2, FailsForGood s' l2 e /\ (l2 = [] \/ (e = err_too_long /\ max_size <= String.length (text l2))) /\
    (reports_own rd -> e = err_too_long -> max_size <= String.length (text l2)).
Proof.
  intros E.
  assert (G : forall b n o b', (reports_own rd -> berr b <> Some (RErr err_too_long)) -> ScanB start_size max_size split rd n b = Ret (Some o, b') ->
    (reports_own rd -> berr b' <> Some (RErr err_too_long))).
  { intros b n o b' H Sc O. exact (ScanB_own n O b _ b' (H O) Sc). }
  assert (K : forall s l x s', Emits s l x s' -> x = Some e -> forall tk er b, s = closure next tk er b -> (reports_own rd -> berr b <> Some (RErr err_too_long)) ->
    exists n b1 b2 tk' er', (reports_own rd -> berr b1 <> Some (RErr err_too_long)) /\ ScanB start_size max_size split rd n b1 = Ret (None, b2) /\ ErrB rd b2 = Some e /\ s' = closure next tk' er' b2).
  { clear l s' E. induction 1 as [s s' [n N]|s o e0 s' [n N]|s t s1 l e0 s2 [n N] E IH]; intros Ex tk er b -> I; specialize (N n (le_n _)); unfold Next in N; cbn [ts_next closure] in N;
      [discriminate| |]; unfold next at 1, btokenizer_next in N; destruct (ScanB start_size max_size split rd n b) as [[[p|] b']| |] eqn:Sc; cbn [bind] in N; try discriminate.
    - destruct (ErrB rd b') as [e1|] eqn:Ee; [|discriminate]. injection N as <- <- <-. exists n, b, b'. do 2 eexists. split; [exact I|]. split; [exact Sc|]. split; [congruence|reflexivity].
    - injection N as Nt <-. exact (IH Ex _ _ b' eq_refl (G _ _ _ _ I Sc)).
    - destruct (ErrB rd b'); discriminate. }
  destruct (K _ _ _ _ E eq_refl _ _ _ eq_refl) as (n & b1 & b2 & tk & er & I1 & Sc & Ee & ->); [intros _; discriminate|].
  destruct (ScanB_false n b1 b2 Sc) as [_ C].
  assert (Eb : berr b2 = Some (RErr e)) by (unfold ErrB in Ee; destruct (berr b2) as [[|e1]|]; congruence).
  destruct (cut_total split SO (pend b2)) as (ps & Cp). destruct (rest_state e _ _ Cp b2 eq_refl Eb) as (b3 & X & P3 & E3).
  exists (map (piece_token U) ps). split.
  - refine (FFG_closure next tk er e (fun b => pend b = EmptyString /\ berr b = Some (RErr e)) _ _ _ X _ (conj P3 E3)).
    intros x [Px Bx]. destruct (err_state e x Px Bx) as (b' & S' & Q). exists None, b'. auto.
  - rewrite text_pieces, (cut_concat split _ _ Cp). split.
    + destruct C as [C|[C1 C2]]; [left|right; split; [congruence|exact C2]]. rewrite C in Cp. inversion Cp as [|p d l0 S C0 H1 H2]; [reflexivity|]. destruct (split_prefix _ SO _ _ _ S) as (Np & _). destruct p; [congruence|discriminate].
    + intros O He. refine (ScanB_own n O b1 _ b2 (I1 O) Sc _). congruence.
Qed.
End Tok.

Lemma tok_refuted start_size max_size : 0 < start_size -> 0 < max_size ->
  exists d, forall U rd r e, reports_own rd -> delivers_text rd r d e ->
  exists s' l2, Emits (TokenizeFrom start_size max_size word_split rd U r) [] (Some err_too_long) s' /\ l2 <> [] /\ FailsForGood s' l2 err_too_long.
Proof.
  intros S0 M0. destruct (C91_refutation2 start_size max_size S0 M0) as (d & _ & _ & H). exists d. intros U rd r e O D. destruct (H U rd r e D) as (s' & E).
  destruct (tok_after word_split word_split_ok start_size max_size U rd r [] err_too_long s' E) as (l2 & K & _ & L). exists s', l2. split; [exact E|]. split; [|exact K].
  intros ->. specialize (L O eq_refl). cbn in L. lia.
Qed.

Lemma C92_refutation :
  (forall U scan ms ic ig D b, scanner_ok scan -> uIsSpace U 44 = false -> dictionary_of (key_tokens U scan) ms D -> built_from U scan ms ic ig b -> ~ final_errors (SynFilter U None b)) /\
  (forall start_size max_size, 0 < start_size -> 0 < max_size -> exists d, forall U rd r e, reports_own rd -> delivers_text rd r d e ->
   exists s' l2, Emits (TokenizeFrom start_size max_size word_split rd U r) [] (Some err_too_long) s' /\ l2 <> [] /\ FailsForGood s' l2 err_too_long).
Proof. split; [|exact tok_refuted]. intros U scan ms ic ig D b SC CS. exact (C92_syn_refuted U scan SC CS ms ic ig D b). Qed.
