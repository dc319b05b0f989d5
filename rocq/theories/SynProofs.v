(** * SynProofs: the synonyms filter. *)

From Verif Require Import Base Utf8 Unicode Token Stream StreamSpec Queue Tokenizer Trie Synonyms FilterSpec SynSpec
  StreamProofs TokenProofs FilterProofs TrieProofs.

(** ** Sources *)

Definition Src (s : TokenStream) (l : list token) (e : option error) : Prop :=
  exists s', Emits s l e s' /\ (e = None -> Quiet s').

Lemma Src_yields s l : Yields s l <-> Src s l None.
Proof. split; intros (s' & E & Q); exists s'; auto. Qed.

Lemma Src_fails s l e : Fails s l e <-> Src s l (Some e).
Proof. split; [intros (s' & E)|intros (s' & E & _)]; exists s'; auto. split; [exact E|discriminate]. Qed.

Lemma Src_fields s s1 l e : ts_next s = ts_next s1 -> Src s l e -> Src s1 l e.
Proof. intros H (s' & E & Q). exists s'. split; [eapply Emits_fields; eauto|exact Q]. Qed.

Lemma Src_cons s t l e : Src s (t :: l) e -> exists s1, Nexts s (Some t, None) s1 /\ Src s1 l e.
Proof. intros (s' & E & Q). inversion E; subst. eexists. split; [eassumption|]. exists s'. auto. Qed.

Lemma Src_eof s : Src s [] None -> exists s1, Nexts s (None, None) s1 /\ Src s1 [] None.
Proof.
  intros (s' & E & Q). inversion E; subst. exists s'. split; [assumption|].
  destruct (Q eq_refl) as [s2 N2 Q2]. exists s2. split; [apply Emits_eof, N2|auto].
Qed.

Lemma Src_err s e : Src s [] (Some e) -> exists o s1, Nexts s (o, Some e) s1.
Proof. intros (s' & E & Q). inversion E; subst. eauto. Qed.

(** ** Words and windows *)

Definition nonword (t : token) : bool := tspace t || tpunct t.

Lemma nonword_spec t : nonword t = true <-> ~ word t.
Proof. unfold nonword, word. destruct (tspace t), (tpunct t); simpl; intuition congruence. Qed.

Lemma word_spec t : nonword t = false <-> word t.
Proof. unfold nonword, word. destruct (tspace t), (tpunct t); simpl; intuition congruence. Qed.

Lemma words_in_cons t l : words_in (t :: l) = if nonword t then words_in l else S (words_in l).
Proof. unfold words_in, nonword. cbn [filter]. destruct (tspace t), (tpunct t); reflexivity. Qed.

Lemma words_in_app a b : words_in (a ++ b) = words_in a + words_in b.
Proof. unfold words_in. rewrite filter_app, app_length. reflexivity. Qed.

Definition has_punct (l : list token) : Prop := exists t, In t l /\ tpunct t = true.

Lemma window_prefix n l : firstn (length (window n l)) l = window n l.
Proof.
  revert n. induction l as [|t l IH]; intros [|n]; try reflexivity. cbn [window].
  destruct (tpunct t); [reflexivity|]. destruct (tspace t); cbn [length firstn]; f_equal; [apply (IH (S n))|apply IH].
Qed.

Lemma window_app n l r : has_punct l \/ n <= words_in l -> window n (l ++ r) = window n l.
Proof.
  revert n. induction l as [|t l IH]; intros [|n] H; try reflexivity.
  - destruct r; reflexivity.
  - exfalso. destruct H as [(t & [] & _)|H]. cbn in H. lia.
  - cbn [window app]. destruct (tpunct t) eqn:P; [reflexivity|].
    assert (H' : forall m, (nonword t = true -> m = S n) -> (nonword t = false -> m = n) -> has_punct l \/ m <= words_in l).
    { intros m A B. destruct H as [(x & [<-|I] & Q)|H]; [congruence|left; exists x; auto|].
      rewrite words_in_cons in H. destruct (nonword t); [rewrite (A eq_refl)|rewrite (B eq_refl)]; right; lia. }
    unfold nonword in H'. rewrite P in H'.
    destruct (tspace t) eqn:Sp; cbn [orb] in H'; f_equal.
    + apply (IH (S n)). apply H'; [reflexivity|discriminate].
    + apply IH. apply H'; [discriminate|reflexivity].
Qed.

Lemma run_loop_window mw todo : forall i words, words < mw ->
  run_loop mw i words i todo = i + length (window (mw - words) todo).
Proof.
  induction todo as [|t todo IH]; intros i words H.
  - destruct (mw - words); cbn; lia.
  - destruct (mw - words) as [|m] eqn:E; [lia|]. cbn [run_loop window].
    destruct (tpunct t); [cbn; lia|]. destruct (tspace t); cbn [negb length].
    + destruct (Nat.leb_spec mw words); [lia|]. rewrite IH by lia. rewrite E. lia.
    + destruct (Nat.leb_spec mw (S words)).
      * replace m with 0 by lia. destruct todo; cbn; lia.
      * rewrite IH by lia. replace (mw - S words) with m by lia. lia.
Qed.

Lemma wordrun_window mw buf : 1 <= mw -> (forall t r, buf = t :: r -> word t) -> buf <> [] ->
  wordrun mw buf = (None, window mw buf).
Proof.
  intros M H N. destruct buf as [|t r]; [congruence|]. unfold wordrun.
  specialize (H t r eq_refl). apply word_spec in H. unfold nonword in H. rewrite H.
  rewrite run_loop_window by lia. rewrite Nat.sub_0_r. cbn [plus]. rewrite window_prefix. reflexivity.
Qed.

Lemma window_head n t l : word t -> 1 <= n -> exists w, window n (t :: l) = t :: w.
Proof.
  intros [P S] H. destruct n; [lia|]. cbn [window]. rewrite P, S. eauto.
Qed.

Lemma window_length n l : length (window n l) <= length l.
Proof. rewrite <- window_prefix at 1. rewrite firstn_length. lia. Qed.

(** ** fill *)

Lemma lead_loop_spec buf : forall out,
  exists lead rest, buf = lead ++ rest /\ Forall (fun t => nonword t = true) lead /\
    (forall t r, rest = t :: r -> nonword t = false) /\
    lead_loop buf out = (length lead, out ++ lead).
Proof.
  induction buf as [|t buf IH]; intros out.
  - exists [], []. repeat split; try constructor; [discriminate|]. cbn. rewrite app_nil_r. reflexivity.
  - cbn [lead_loop]. destruct (tspace t || tpunct t) eqn:E.
    + destruct (IH (q_push out [t])) as (lead & rest & -> & F & R & ->). exists (t :: lead), rest.
      split; [reflexivity|]. split; [constructor; assumption|]. split; [exact R|].
      unfold q_push. rewrite <- app_assoc. reflexivity.
    + exists [], (t :: buf). split; [reflexivity|]. split; [constructor|].
      split; [intros x r H; injection H as -> ->; exact E|]. rewrite app_nil_r. reflexivity.
Qed.

Lemma fill_scan_spec l e : forall up buf out, Src up l e ->
  exists up' buf' out', Returns2 (fun fuel k => fill_scan fuel k up buf out) (up', buf', out') /\
  ((exists lead t l', l = lead ++ t :: l' /\ Forall (fun t => nonword t = true) lead /\ nonword t = false /\
      buf' = buf ++ [t] /\ out' = out ++ lead /\ Src up' l' e /\ Err up' = None) \/
   (Forall (fun t => nonword t = true) l /\ buf' = buf /\ out' = out ++ l /\ Err up' = e /\
      (e = None -> Src up' [] None))).
Proof.
  induction l as [|t l IH]; intros up buf out S.
  - destruct e as [e|].
    + destruct (Src_err _ _ S) as (o & s1 & N). destruct (Scan_err _ _ _ _ N) as [n Hn].
      do 3 eexists. split.
      * eapply (Returns2_step _ _ _ n); [|apply Returns2_const].
        intros fuel k Hf. cbn [fill_scan]. rewrite Hn by lia. cbn. reflexivity.
      * right. rewrite app_nil_r. repeat split; try constructor. discriminate.
    + destruct (Src_eof _ S) as (s1 & N & S1). destruct (Scan_eof _ _ N) as [n Hn].
      do 3 eexists. split.
      * eapply (Returns2_step _ _ _ n); [|apply Returns2_const].
        intros fuel k Hf. cbn [fill_scan]. rewrite Hn by lia. cbn. reflexivity.
      * right. rewrite app_nil_r. split; [constructor|]. split; [reflexivity|]. split; [reflexivity|].
        split; [reflexivity|]. intros _. eapply Src_fields; [|exact S1]. reflexivity.
  - destruct (Src_cons _ _ _ _ S) as (s1 & N & S1). destruct (Scan_token _ _ _ N) as [n Hn].
    assert (S1' : Src (set_fields (Some t, None) s1) l e) by (eapply Src_fields; [|exact S1]; reflexivity).
    destruct (tspace t || tpunct t) eqn:E.
    + destruct (IH (set_fields (Some t, None) s1) buf (q_push out [t]) S1') as (up' & buf' & out' & R & C).
      exists up', buf', out'. split.
      * eapply (Returns2_step _ _ _ n); [|exact R]. intros fuel k Hf. cbn [fill_scan]. rewrite Hn by lia.
        cbn [bind Token ts_token set_fields fst]. rewrite E. reflexivity.
      * destruct C as [(lead & x & l' & -> & F & Nx & -> & -> & Sx & Ex)|(F & -> & -> & Ee & Se)].
        -- left. exists (t :: lead), x, l'. unfold q_push. rewrite <- app_assoc. repeat split; auto.
        -- right. unfold q_push. rewrite <- app_assoc. split; [constructor; [exact E|exact F]|]. auto.
    + do 3 eexists. split.
      * eapply (Returns2_step _ _ _ n); [|apply Returns2_const].
        intros fuel k Hf. cbn [fill_scan]. rewrite Hn by lia. cbn [bind Token ts_token set_fields fst]. rewrite E. reflexivity.
      * left. exists [], t, l. rewrite app_nil_r. split; [reflexivity|]. split; [constructor|].
        repeat split; auto.
Qed.

Lemma fill_words_spec mw l e : forall up buf wc, Src up l e ->
  exists err up' buf', Returns2 (fun fuel k => fill_words fuel k mw wc up buf) (err, up', buf') /\
  ((err = None /\ exists add l', buf' = buf ++ add /\ l = add ++ l' /\ Src up' l' e /\
      (has_punct add \/ mw <= wc + words_in add \/ (l' = [] /\ e = None))) \/
   (e <> None /\ err = e)).
Proof.
  induction l as [|t l IH]; intros up buf wc S.
  - destruct (Nat.ltb_spec wc mw) as [L|L].
    + destruct e as [e|].
      * destruct (Src_err _ _ S) as (o & s1 & [n Hn]).
        do 3 eexists. split.
        -- eapply (Returns2_step _ _ _ n); [|apply Returns2_const].
           intros fuel k Hf. cbn [fill_words]. apply Nat.ltb_lt in L. rewrite L.
           rewrite Hn by lia. cbn. destruct o; reflexivity.
        -- right. split; [discriminate|reflexivity].
      * destruct (Src_eof _ S) as (s1 & [n Hn] & S1).
        do 3 eexists. split.
        -- eapply (Returns2_step _ _ _ n); [|apply Returns2_const].
           intros fuel k Hf. cbn [fill_words]. apply Nat.ltb_lt in L. rewrite L.
           rewrite Hn by lia. cbn. reflexivity.
        -- left. split; [reflexivity|]. exists [], []. rewrite app_nil_r. repeat split; auto.
    + exists None, up, buf. split.
      * exists 0. intros fuel k _ _. apply Nat.ltb_ge in L. destruct k; cbn [fill_words]; rewrite L; reflexivity.
      * left. split; [reflexivity|]. exists [], []. rewrite app_nil_r. repeat split; auto. right; left. cbn. lia.
  - destruct (Nat.ltb_spec wc mw) as [L|L].
    + destruct (Src_cons _ _ _ _ S) as (s1 & [n Hn] & S1).
      destruct (tpunct t) eqn:P; [|destruct (tspace t) eqn:Sp].
      * do 3 eexists. split.
        -- eapply (Returns2_step _ _ _ n); [|apply Returns2_const].
           intros fuel k Hf. cbn [fill_words]. apply Nat.ltb_lt in L. rewrite L.
           rewrite Hn by lia. cbn. rewrite P. reflexivity.
        -- left. split; [reflexivity|]. exists [t], l. split; [reflexivity|]. split; [reflexivity|]. split; [exact S1|].
           left. exists t. split; [left; reflexivity|exact P].
      * destruct (IH s1 (q_push buf [t]) wc S1) as (err & up' & buf' & R & C).
        exists err, up', buf'. split.
        -- eapply (Returns2_step _ _ _ n); [|exact R]. intros fuel k Hf. cbn [fill_words]. apply Nat.ltb_lt in L. rewrite L.
           rewrite Hn by lia. cbn [bind]. rewrite P, Sp. reflexivity.
        -- destruct C as [(-> & add & l' & -> & -> & S' & C)|C]; [left|right; exact C].
           split; [reflexivity|]. exists (t :: add), l'. unfold q_push. rewrite <- app_assoc.
           split; [reflexivity|]. split; [reflexivity|]. split; [exact S'|].
           destruct C as [(x & I & Q)|[C|C]]; [left; exists x; split; [right; exact I|exact Q]| |auto].
           right; left. rewrite words_in_cons. unfold nonword. rewrite Sp. exact C.
      * destruct (IH s1 (q_push buf [t]) (Datatypes.S wc) S1) as (err & up' & buf' & R & C).
        exists err, up', buf'. split.
        -- eapply (Returns2_step _ _ _ n); [|exact R]. intros fuel k Hf. cbn [fill_words]. apply Nat.ltb_lt in L. rewrite L.
           rewrite Hn by lia. cbn [bind]. rewrite P, Sp. reflexivity.
        -- destruct C as [(-> & add & l' & -> & -> & S' & C)|C]; [left|right; exact C].
           split; [reflexivity|]. exists (t :: add), l'. unfold q_push. rewrite <- app_assoc.
           split; [reflexivity|]. split; [reflexivity|]. split; [exact S'|].
           destruct C as [(x & I & Q)|[C|C]]; [left; exists x; split; [right; exact I|exact Q]| |auto].
           right; left. rewrite words_in_cons. unfold nonword. rewrite Sp, P. cbn [orb]. lia.
    + exists None, up, buf. split.
      * exists 0. intros fuel k _ _. apply Nat.ltb_ge in L. destruct k; cbn [fill_words]; rewrite L; reflexivity.
      * left. split; [reflexivity|]. exists [], (t :: l). rewrite app_nil_r. repeat split; auto. right; left. cbn. lia.
Qed.

Lemma words_in_model buf : length (filter (fun t => negb (tpunct t) && negb (tspace t)) buf) = words_in buf.
Proof. unfold words_in. f_equal. apply filter_ext. intros t. destruct (tpunct t), (tspace t); reflexivity. Qed.

Lemma fill_spec mw st l e : Src (y_in st) l e -> 1 <= mw ->
  exists err st', Returns (fun fuel => fill fuel mw st) (err, st') /\
  ((err = None /\ exists lead l', y_buf st ++ l = lead ++ y_buf st' ++ l' /\
      Forall (fun t => nonword t = true) lead /\ y_out st' = y_out st ++ lead /\ Src (y_in st') l' e /\
      (forall t r, y_buf st' = t :: r -> word t) /\
      (y_buf st' = [] -> l' = [] /\ e = None) /\
      (has_punct (y_buf st') \/ mw <= words_in (y_buf st') \/ (l' = [] /\ e = None))) \/
   (e <> None /\ err = e)).
Proof.
  intros S M. destruct st as [up buf out]. cbn [y_in y_buf y_out] in *.
  destruct (lead_loop_spec buf out) as (lead & rest & -> & F & R & E).
  assert (Dr : q_drop (lead ++ rest) (length lead) = Ret rest).
  { unfold q_drop. rewrite app_length. destruct (Nat.leb_spec (length lead) (length lead + length rest)); [|lia].
    rewrite skipn_app, skipn_all, Nat.sub_diag. reflexivity. }
  destruct rest as [|t rest].
  - (* the buffer is empty: scan *)
    destruct (fill_scan_spec l e up [] (out ++ lead) S) as (up1 & buf1 & out1 & R1 & C1).
    apply Returns2_diag in R1. destruct R1 as [n1 H1].
    destruct C1 as [(lead2 & t & l' & -> & F2 & Nt & -> & -> & S1 & E1)|(F2 & -> & -> & E1 & S1)].
    + cbn [app] in *.
      destruct (fill_words_spec mw l' e up1 [t] (words_in [t]) S1) as (err & up2 & buf2 & R2 & C2).
      apply Returns2_diag in R2. destruct R2 as [n2 H2].
      exists err, (mkSyn up2 buf2 ((out ++ lead) ++ lead2)). split.
      * exists (Nat.max n1 n2). intros m Hm. unfold fill. cbn [y_buf y_out y_in]. rewrite E, Dr.
        cbn [bind q_len length Nat.eqb]. rewrite H1 by lia. cbn [bind]. rewrite E1. rewrite words_in_model.
        rewrite H2 by lia. reflexivity.
      * destruct C2 as [(-> & add & l2 & -> & -> & S2 & C2)|C2]; [left|right; exact C2].
        split; [reflexivity|]. exists (lead ++ lead2), l2. cbn [y_buf y_out y_in].
        split; [rewrite app_nil_r; rewrite <- app_assoc; f_equal; f_equal; reflexivity|].
        split; [apply Forall_app; split; assumption|]. split; [rewrite app_assoc; reflexivity|]. split; [exact S2|].
        split; [intros x r Hx; injection Hx as <- _; apply word_spec, Nt|]. split; [discriminate|].
        destruct C2 as [(x & I & Q)|[C2|C2]]; [left; exists x; split; [right; exact I|exact Q]| |auto].
        right; left. rewrite words_in_app. exact C2.
    + destruct e as [e|].
      * exists (Some e), (mkSyn up1 [] ((out ++ lead) ++ l)). split; [|right; split; [discriminate|reflexivity]].
        exists n1. intros m Hm. unfold fill. cbn [y_buf y_out y_in]. rewrite E, Dr.
        cbn [bind q_len length Nat.eqb]. rewrite H1 by lia. cbn [bind]. rewrite E1. reflexivity.
      * destruct (fill_words_spec mw [] None up1 [] (words_in []) (S1 eq_refl)) as (err & up2 & buf2 & R2 & C2).
        apply Returns2_diag in R2. destruct R2 as [n2 H2].
        exists err, (mkSyn up2 buf2 ((out ++ lead) ++ l)). split.
        -- exists (Nat.max n1 n2). intros m Hm. unfold fill. cbn [y_buf y_out y_in]. rewrite E, Dr.
           cbn [bind q_len length Nat.eqb]. rewrite H1 by lia. cbn [bind]. rewrite E1. rewrite words_in_model.
           rewrite H2 by lia. reflexivity.
        -- destruct C2 as [(-> & add & l2 & -> & El & S2 & C2)|[C2 _]]; [left|congruence].
           symmetry in El. apply app_eq_nil in El. destruct El as [-> ->].
           split; [reflexivity|]. exists (lead ++ l), []. cbn [y_buf y_out y_in app].
           split; [rewrite !app_nil_r; reflexivity|]. split; [apply Forall_app; split; assumption|].
           split; [rewrite app_assoc; reflexivity|]. split; [exact S2|]. split; [discriminate|]. auto.
  - (* words are waiting *)
    destruct (fill_words_spec mw l e up (t :: rest) (words_in (t :: rest)) S) as (err & up2 & buf2 & R2 & C2).
    apply Returns2_diag in R2. destruct R2 as [n2 H2].
    exists err, (mkSyn up2 buf2 (out ++ lead)). split.
    + exists n2. intros m Hm. unfold fill. cbn [y_buf y_out y_in]. rewrite E, Dr.
      cbn [bind q_len length Nat.eqb]. rewrite words_in_model. rewrite H2 by lia. reflexivity.
    + destruct C2 as [(-> & add & l2 & -> & -> & S2 & C2)|C2]; [left|right; exact C2].
      split; [reflexivity|]. exists lead, l2. cbn [y_buf y_out y_in].
      split; [rewrite !app_assoc; reflexivity|]. split; [exact F|]. split; [reflexivity|]. split; [exact S2|].
      split; [intros x r Hx; injection Hx as <- _; apply word_spec, (R t rest eq_refl)|]. split; [discriminate|].
      destruct C2 as [(x & I & Q)|[C2|C2]]; [left; exists x; split; [apply in_or_app; right; exact I|exact Q]| |auto].
      right; left. rewrite words_in_app. exact C2.
Qed.

(** ** The loop *)

Section Loop.
Variable U : unicode.
Variable ic : bool.
Variable ig : list N.
Variable D : dictionary.
Variable tr : trie.
Variable mw : nat.
Hypothesis Search : forall l, finds U ic ig D l (SearchCanonical U tr l).
Hypothesis Mw : 1 <= mw.

Let b := mkBuilt (Some tr) mw.

Lemma rewrites_lead lead l o : Forall (fun t => nonword t = true) lead ->
  rewrites U ic ig D mw l o -> rewrites U ic ig D mw (lead ++ l) (lead ++ o).
Proof.
  induction 1 as [|t lead H F IH]; intros R; [exact R|]. cbn [app]. apply RW_pass; [apply nonword_spec, H|auto].
Qed.

Lemma canonical_push c : exists g, canonical_token U c g /\ forall out,
  (if seqb c EmptyString then out
   else match NewToken U c true with Some tok => q_push out [tok] | None => out end) = out ++ g.
Proof.
  destruct (seqb c EmptyString) eqn:E.
  - apply seqb_eq in E. exists []. split; [left; auto|]. intros. rewrite app_nil_r. reflexivity.
  - destruct (NewToken_cons U c true) as (t & N); [intros ->; discriminate|].
    exists [t]. split; [|intros; rewrite N; reflexivity]. right. exists t. split; [|reflexivity].
    destruct (NewToken_value _ _ _ _ N) as (A & B & _). split; [exact A|split; [exact B|exact N]].
Qed.

Lemma loop_spec n : forall st l e, length (y_buf st ++ l) < n -> Src (y_in st) l e ->
  exists err st', Returns2 (fun fuel k => syn_loop U b fuel k st) (err, st') /\
  ((e = None /\ err = None /\ y_buf st' = [] /\ Src (y_in st') [] None /\
      exists o, rewrites U ic ig D mw (y_buf st ++ l) o /\ y_out st' = y_out st ++ o) \/
   (e <> None /\ err = e)).
Proof.
  induction n as [|n IH]; intros st l e Len S; [lia|].
  destruct (fill_spec mw st l e S Mw) as (err & st1 & [n1 R1] & C).
  destruct C as [(-> & lead & l1 & Eq & F & Eo & S1 & W & Em & Full)|[Ne ->]].
  2:{ destruct e as [e|]; [|congruence]. exists (Some e), st1. split; [|right; split; [discriminate|reflexivity]].
      eapply (Returns2_step _ _ _ n1); [|apply Returns2_const].
      intros fuel k Hf. cbn [syn_loop]. change (b_maxWords b) with mw. rewrite R1 by lia. reflexivity. }
  destruct (y_buf st1) as [|t rest] eqn:Eb.
  - destruct (Em eq_refl) as [-> ->]. exists None, st1. split.
    + eapply (Returns2_step _ _ _ n1); [|apply Returns2_const].
      intros fuel k Hf. cbn [syn_loop]. change (b_maxWords b) with mw. rewrite R1 by lia. cbn [bind]. rewrite Eb. reflexivity.
    + left. repeat split; auto. exists lead. split; [|exact Eo].
      rewrite Eq. rewrite <- (app_nil_r lead) at 2. apply rewrites_lead; [exact F|constructor].
  - assert (Wt : word t) by (eapply W; reflexivity).
    assert (Wr : wordrun mw (t :: rest) = (None, window mw (t :: rest)))
      by (apply wordrun_window; [exact Mw|intros x r Hx; eapply W, Hx|discriminate]).
    assert (We : window mw ((t :: rest) ++ l1) = window mw (t :: rest)).
    { destruct Full as [Fu|[Fu|[-> _]]]; [apply window_app; auto|apply window_app; auto|rewrite app_nil_r; reflexivity]. }
    destruct (window_head mw t rest Wt Mw) as (w & Ew).
    pose proof (Search (window mw (t :: rest))) as Fi.
    destruct (SearchCanonical U tr (window mw (t :: rest))) as [[found c] k] eqn:Es.
    destruct found.
    + (* a synonym *)
      cbn [finds] in Fi. pose proof Fi as [[K _] _].
      destruct (canonical_push c) as (g & G & Po).
      assert (K2 : k <= length (t :: rest)) by (pose proof (window_length mw (t :: rest)); lia).
      assert (L2 : length (y_buf (mkSyn (y_in st1) (skipn k (t :: rest)) (y_out st1 ++ g)) ++ l1) < n).
      { cbn [y_buf]. rewrite app_length, skipn_length. rewrite Eq in Len. rewrite !app_length in Len. lia. }
      destruct (IH (mkSyn (y_in st1) (skipn k (t :: rest)) (y_out st1 ++ g)) l1 e L2 S1) as (err & st2 & R2 & C2).
      exists err, st2. split.
      * eapply (Returns2_step _ _ _ n1); [|exact R2].
        intros fuel k0 Hf. cbn [syn_loop]. change (b_maxWords b) with mw. change (b_trie b) with (Some tr).
        rewrite R1 by lia. cbn [bind]. rewrite Eb. cbn [q_len length Nat.eqb]. rewrite Wr.
        rewrite Ew at 1. cbn [length Nat.eqb]. rewrite Es. rewrite (Po (y_out st1)).
        unfold q_drop. destruct (Nat.leb_spec k (length (t :: rest))); [|lia]. reflexivity.
      * destruct C2 as [(-> & -> & B2 & S2 & o & Rw & Eo2)|C2]; [left|right; exact C2].
        repeat split; auto. cbn [y_buf y_out] in *. exists (lead ++ g ++ o). split.
        -- rewrite Eq. apply rewrites_lead; [exact F|]. cbn [app].
           eapply RW_replace; [exact Wt| |exact G|].
           ++ change (t :: rest ++ l1) with ((t :: rest) ++ l1). rewrite We. exact Fi.
           ++ change (t :: rest ++ l1) with ((t :: rest) ++ l1). rewrite skipn_app.
              replace (k - length (t :: rest)) with 0 by lia. exact Rw.
        -- rewrite Eo2, Eo, !app_assoc. reflexivity.
    + (* not a synonym *)
      destruct Fi as (-> & -> & Fi).
      assert (L2 : length (y_buf (mkSyn (y_in st1) rest (y_out st1 ++ [t])) ++ l1) < n).
      { cbn [y_buf]. rewrite Eq in Len. rewrite !app_length in *. cbn [length] in Len. lia. }
      destruct (IH (mkSyn (y_in st1) rest (y_out st1 ++ [t])) l1 e L2 S1) as (err & st2 & R2 & C2).
      exists err, st2. split.
      * eapply (Returns2_step _ _ _ n1); [|exact R2].
        intros fuel k0 Hf. cbn [syn_loop]. change (b_maxWords b) with mw. change (b_trie b) with (Some tr).
        rewrite R1 by lia. cbn [bind]. rewrite Eb. cbn [q_len length Nat.eqb]. rewrite Wr.
        rewrite Ew at 1. cbn [length Nat.eqb]. rewrite Es. reflexivity.
      * destruct C2 as [(-> & -> & B2 & S2 & o & Rw & Eo2)|C2]; [left|right; exact C2].
        repeat split; auto. cbn [y_buf y_out] in *. exists (lead ++ t :: o). split.
        -- rewrite Eq. apply rewrites_lead; [exact F|]. cbn [app]. apply RW_keep; [exact Wt| |exact Rw].
           change (t :: rest ++ l1) with ((t :: rest) ++ l1). rewrite We. exact Fi.
        -- rewrite Eo2, Eo, <- !app_assoc. reflexivity.
Qed.

Lemma syn_drain s q : PullsX (syn_next U b) (mkSyn s [] q) q (mkSyn s [] []).
Proof.
  induction q as [|t q IH]; [constructor|]. eapply PX_cons; [|exact IH].
  exists 0. intros m _. reflexivity.
Qed.

Lemma syn_quiet st : (y_buf st = [] /\ y_out st = [] /\ Src (y_in st) [] None) ->
  exists st', Steps (syn_next U b) st (None, None) st' /\ y_buf st' = [] /\ y_out st' = [] /\ Src (y_in st') [] None.
Proof.
  intros (B & O & S). destruct (loop_spec (Datatypes.S (length (y_buf st ++ []))) st [] None ltac:(lia) S) as (err & st' & R & C).
  destruct C as [(_ & -> & B' & S' & o & Rw & Eo)|[C _]]; [|congruence].
  rewrite B in Rw. cbn in Rw. inversion Rw; subst. rewrite O in Eo. cbn in Eo.
  apply Returns2_diag in R. destruct R as [n Hn].
  exists (mkSyn (y_in st') [] []). split; [|cbn; auto].
  exists n. intros m Hm. unfold syn_next. rewrite B, O. cbn [q_len q_any length Nat.eqb negb Nat.ltb Nat.leb].
  rewrite Hn by lia. cbn [bind]. rewrite B', Eo. reflexivity.
Qed.

Lemma Syn_yields s l : Yields s l -> exists o, rewrites U ic ig D mw l o /\ Yields (SynFilter U None b s) o.
Proof.
  intros Y. apply Src_yields in Y.
  destruct (loop_spec (Datatypes.S (length l)) (mkSyn s [] []) l None ltac:(cbn; lia) Y) as (err & st' & R & C).
  destruct C as [(_ & -> & B' & S' & o & Rw & Eo)|[C _]]; [|congruence]. cbn [y_buf y_out app] in *.
  exists o. split; [exact Rw|]. apply Returns2_diag in R. destruct R as [n Hn].
  assert (Q0 : forall q, EmitsX (syn_next U b) (mkSyn (y_in st') [] q) q None
    (mkSyn (y_in st') [] []) -> True) by auto. clear Q0.
  destruct (syn_quiet (mkSyn (y_in st') [] []) ltac:(cbn; auto)) as (st2 & Q1 & Q2).
  assert (Ex : EmitsX (syn_next U b) (mkSyn s [] []) o None
                 (match o with [] => mkSyn (y_in st') [] [] | _ => st2 end)).
  { destruct o as [|t o].
    - apply EX_eof. exists n. intros m Hm. unfold syn_next. cbn [y_buf y_out q_len q_any length Nat.eqb negb Nat.ltb Nat.leb].
      rewrite Hn by lia. cbn [bind]. rewrite B', Eo. reflexivity.
    - apply EX_cons with (x1 := mkSyn (y_in st') [] o).
      + exists n. intros m Hm. unfold syn_next. cbn [y_buf y_out q_len q_any length Nat.eqb negb Nat.ltb Nat.leb].
        rewrite Hn by lia. cbn [bind]. rewrite B', Eo. unfold q_flushto, q_clear. rewrite app_nil_r. reflexivity.
      + replace o with (o ++ []) by apply app_nil_r. eapply PullsX_EmitsX.
        * rewrite app_nil_r. apply syn_drain.
        * apply EX_eof, Q1. }
  eapply (Yields_closure _ (fun st => y_buf st = [] /\ y_out st = [] /\ Src (y_in st) [] None)).
  - exact Ex.
  - apply syn_quiet.
  - destruct o; [cbn; auto|exact Q2].
Qed.

Lemma Syn_fails s l e : Fails s l e -> Fails (SynFilter U None b s) [] e.
Proof.
  intros Y. apply Src_fails in Y.
  destruct (loop_spec (Datatypes.S (length l)) (mkSyn s [] []) l (Some e) ltac:(cbn; lia) Y) as (err & st' & R & C).
  destruct C as [(C & _)|[_ ->]]; [discriminate|]. apply Returns2_diag in R. destruct R as [n Hn].
  eapply Fails_closure. eapply EX_err with (o := None) (x' := st').
  exists n. intros m Hm. unfold syn_closure, syn_next. cbn [y_buf y_out q_len q_any length Nat.eqb negb Nat.ltb Nat.leb].
  rewrite Hn by lia. reflexivity.
Qed.

(** The rewriting is determined. *)
Lemma canonical_token_inj c g1 g2 : canonical_token U c g1 -> canonical_token U c g2 -> g1 = g2.
Proof.
  clear b Search Mw. clear tr.
  intros [[-> ->]|(t & (V & _ & N) & ->)] [[E ->]|(t2 & (V2 & _ & N2) & ->)]; auto; try congruence.
  - rewrite NewToken_nil in N2. discriminate.
  - subst c. rewrite E in N. rewrite NewToken_nil in N. discriminate.
Qed.

Lemma rewrites_inj n : forall l o1 o2, length l < n ->
  rewrites U ic ig D mw l o1 -> rewrites U ic ig D mw l o2 -> o1 = o2.
Proof.
  clear b Search Mw. clear tr.
  induction n as [|n IH]; intros l o1 o2 L R1 R2; [lia|].
  inversion R1; subst; inversion R2; subst; cbn [length] in L; try contradiction; try reflexivity.
  - f_equal. eapply IH; [|eassumption|eassumption]. lia.
  - f_equal. eapply IH; [|eassumption|eassumption]. lia.
  - exfalso. match goal with A : forall k c, ~ matches _ _ _ _ _ k c, B : longest _ _ _ _ _ _ _ |- _ => destruct B as [B _]; eapply A, B end.
  - exfalso. match goal with A : forall k c, ~ matches _ _ _ _ _ k c, B : longest _ _ _ _ _ _ _ |- _ => destruct B as [B _]; eapply A, B end.
  - match goal with A : longest _ _ _ _ _ ?k1 ?c1, B : longest _ _ _ _ _ ?k2 ?c2 |- _ =>
      destruct (longest_inj _ _ _ _ _ _ _ _ _ A B); subst; pose proof A as [[K _] _] end.
    f_equal; [eapply canonical_token_inj; eassumption|].
    eapply IH; [|eassumption|eassumption]. rewrite skipn_length. cbn [length]. lia.
Qed.

End Loop.
