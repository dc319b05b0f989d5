(** * ChainProofs: chains of library filters (C10 - C12). *)

From Verif Require Import Base Utf8 Unicode Token Stream StreamSpec ListSpec Tokenizer Filters Ascii Trie Synonyms
  FilterSpec SynSpec ChainSpec StreamProofs TokenProofs FilterProofs AsciiProofs TrieProofs SynProofs BuildProofs.

Section Chain.
Variable U : unicode.
Variable scan : oracle.
Hypothesis SC : scanner_ok scan.
Hypothesis CS : uIsSpace U 44 = false.

Lemma total_maps fs : (forall f t, In f fs -> f t <> None) -> forall l, exists l', Forall2 (maps_to fs) l l'.
Proof.
  intros H l. apply Forall2_exists. intros t _. unfold maps_to. revert t. induction fs as [|f fs IH]; intros t.
  - exists t. reflexivity.
  - cbn [apply_funcs]. destruct (f t) as [t1|] eqn:E; [|exfalso; eapply H; [left; reflexivity|exact E]].
    apply IH. intros; apply H; right; assumption.
Qed.

(** ** Filters without a buffer: what they make of a list of tokens *)

Definition transforms (F : Filter) (f : list token -> list token) : Prop :=
  (forall s l, Yields s l -> Yields (F s) (f l)) /\
  (forall s l e, Fails s l e -> Fails (F s) (f l) e) /\
  (forall s l s1, Pulls s l s1 -> exists w, Pulls (F s) (f l) w).

Lemma Pulls_prefix l : forall s t s1, Pulls s (l ++ [t]) s1 -> exists s', Pulls s l s'.
Proof.
  induction l as [|a l IH]; intros s t s1 P; [exists s; constructor|].
  cbn [app] in P. inversion P as [|s0 t0 s2 l0 s3 N P2]; subst. destruct (IH _ _ _ P2) as (s' & H).
  exists s'. econstructor; eauto.
Qed.

Lemma keep_snoc {P} (pred : P -> token -> bool * P) l t : forall p,
  keep pred p (l ++ [t]) = keep pred p l ++ (if fst (pred (keep_state pred p l) t) then [t] else []).
Proof.
  induction l as [|a l IH]; intros p; cbn [app keep keep_state].
  - destruct (pred p t) as [[|] p']; reflexivity.
  - destruct (pred p a) as [[|] p'] eqn:E; cbn [fst snd]; rewrite IH; reflexivity.
Qed.

Lemma where_pulls_any {P} (pred : P -> token -> bool * P) p l : forall s s1, Pulls s l s1 ->
  exists x, PullsX (where_next pred) (p, s) (keep pred p l) x.
Proof.
  induction l as [|t l IH] using rev_ind; intros s s1 H; [eexists; constructor|].
  destruct (fst (pred (keep_state pred p l) t)) eqn:E.
  - eexists. eapply where_pulls; eauto.
  - destruct (Pulls_prefix _ _ _ _ H) as (s' & H'). destruct (IH _ _ H') as (x & X). exists x.
    rewrite keep_snoc, E, app_nil_r. exact X.
Qed.

Lemma where_transforms pred : transforms (Where pred) (filter pred).
Proof.
  split; [|split]; [apply Where_yields|apply Where_fails|].
  intros s l s1 H. destruct (where_pulls_any (stateless pred) tt _ _ _ H) as (x & X).
  rewrite keep_stateless in X. destruct (PullsX_Pulls _ _ _ _ X None None) as (a & b & A). eexists. exact A.
Qed.

Lemma distinct_transforms : transforms Distinct (first_occurrences []).
Proof.
  split; [|split]; [apply Distinct_yields|apply Distinct_fails|].
  intros s l s1 H. destruct (where_pulls_any distinct_pred [] _ _ _ H) as (x & X).
  rewrite keep_distinct in X. destruct (PullsX_Pulls _ _ _ _ X None None) as (a & b & A). eexists. exact A.
Qed.

Lemma stop_transforms words ic : transforms (Stopwords U words ic) (filter (stop_pred U words ic)).
Proof.
  split; [|split]; [apply Stopwords_yields|apply Stopwords_fails|].
  intros s l. revert s. induction l as [|t l IH] using rev_ind; intros s s1 H; [eexists; constructor|].
  destruct (stop_pred U words ic t) eqn:E.
  - destruct (Stopwords_lazy U words ic _ _ _ _ H E) as (w & W & _). eauto.
  - destruct (Pulls_prefix _ _ _ _ H) as (s' & H'). destruct (IH _ _ H') as (x & X). exists x.
    rewrite filter_app. cbn [filter]. rewrite E, app_nil_r. exact X.
Qed.

Definition force_map (fs : list mapfunc) (t : token) : token :=
  match apply_funcs fs (Some t) with Ret (Some t') => t' | _ => t end.

Lemma force_maps fs : (forall f t, In f fs -> f t <> None) -> forall l, Forall2 (maps_to fs) l (map (force_map fs) l).
Proof.
  intros H l. destruct (total_maps fs H l) as (l' & F). replace (map (force_map fs) l) with l'; [exact F|].
  induction F as [|t t' l l' M F IH]; [reflexivity|]. cbn [map]. rewrite <- IH. f_equal.
  unfold force_map. unfold maps_to in M. rewrite M. reflexivity.
Qed.

Lemma mapper_transforms fs : (forall f t, In f fs -> f t <> None) -> transforms (Mapper fs) (map (force_map fs)).
Proof.
  intros H. split; [|split]; intros.
  - eapply Mapper_yields; [eassumption|apply force_maps, H].
  - eapply Mapper_fails; [eassumption|apply force_maps, H].
  - destruct (Mapper_lazy _ _ _ _ _ H0 (force_maps fs H l)) as (w & W & _). eauto.
Qed.

Lemma plain_transforms F : plain_filter U scan F -> exists f, transforms F f.
Proof.
  destruct 1.
  - eexists. apply where_transforms.
  - eexists. apply where_transforms.
  - eexists. apply where_transforms.
  - eexists. apply distinct_transforms.
  - eexists. apply stop_transforms.
  - eexists. apply mapper_transforms. assumption.
  - eexists. apply mapper_transforms. intros f t [<-|[]]. destruct (folder_total U t) as (t' & M & _).
    unfold maps_to in M. cbn in M. congruence.
  - eexists. apply mapper_transforms. intros f t [<-|[]]. unfold stem_token. destruct (tpunct t || tspace t); [discriminate|].
    destruct (seqb (stem (tvalue t) true) (tvalue t)) eqn:E; [discriminate|].
    destruct (NewToken_cons U (stem (tvalue t) true) true) as (t' & ->); [|discriminate].
    intros C. apply not_true_iff_false in E. apply E, seqb_eq. rewrite C. symmetry. auto.
  - eexists. apply mapper_transforms. intros f t [<-|[]]. unfold norm_token. destruct (isNormal (tvalue t)) eqn:E; [discriminate|].
    destruct (NewToken_cons U (normalize (tvalue t)) true) as (t' & ->); [auto|discriminate].
  - exists (flat_map (expand_token U scan table)). split; [|split]; intros.
    + apply Contractions_yields; auto.
    + apply Contractions_fails; auto.
    + destruct (Contractions_lazy U scan table SC H _ _ _ H0) as (w & W & _). eauto.
Qed.

Lemma transforms_lookahead F f : transforms F f -> lookahead 0 F.
Proof.
  intros (Y & _ & P) s l s1 H. destruct (P _ _ _ H) as (w & W). exists l, [], (f l), w.
  rewrite app_nil_r. repeat split; auto.
Qed.

Lemma transforms_delivers F f : transforms F f -> delivers F.
Proof. intros (Y & Fa & _) s l e H. exists (f l). split; [apply Fa, H|]. intros s0. apply Y. Qed.

Lemma chain_delivers fs : Forall (plain_filter U scan) fs -> delivers (ApplyFilters fs).
Proof.
  induction 1 as [|F fs H Hs IH].
  - intros s l e H. exists l. auto.
  - destruct (plain_transforms F H) as (f & T). pose proof (transforms_delivers _ _ T) as D.
    intros s l e H1. destruct (D _ _ _ H1) as (o & F1 & Y1). destruct (IH _ _ _ F1) as (o2 & F2 & Y2).
    exists o2. split; [exact F2|]. intros s0 Y0. apply Y2, Y1, Y0.
Qed.

(** ** All filters *)

Definition keeps_end (F : Filter) : Prop :=
  (forall s l, Yields s l -> exists o, Yields (F s) o) /\
  (forall s l e, Fails s l e -> exists o, Fails (F s) o e).

Lemma sigil_keeps sigil legal : sigil <> EmptyString -> keeps_end (Sigil U sigil legal).
Proof.
  intros H. split; intros s l; [|intros e]; intros Y; eexists; [apply Sigil_yields|apply Sigil_fails]; eauto.
Qed.

Lemma library_keeps F : library_filter U scan F -> keeps_end F.
Proof.
  destruct 1.
  - destruct (plain_transforms F H) as (f & Y & Fa & _). split; intros; eexists; [apply Y|apply Fa]; eauto.
  - apply sigil_keeps; assumption.
  - apply sigil_keeps; discriminate.
  - apply sigil_keeps; discriminate.
  - destruct (build_inv U scan SC CS _ _ _ _ _ _ H H0) as (_ & tr & n & -> & R & W).
    split; intros s l; [intros Y|intros e Y].
    + destruct (Syn_yields U ic ig D tr n) with (s := s) (l := l) as (o & _ & Yo); eauto.
      * intros; apply SearchCanonical_spec, R.
      * apply W.
    + exists []. eapply Syn_fails with (D := D); eauto; [intros; apply SearchCanonical_spec, R|apply W].
Qed.

Lemma chain_keeps fs : Forall (library_filter U scan) fs -> keeps_end (ApplyFilters fs).
Proof.
  induction 1 as [|F fs H Hs IH].
  - split; intros; eexists; eassumption.
  - destruct (library_keeps F H) as [K1 K2], IH as [I1 I2]. split.
    + intros s l Y. destruct (K1 _ _ Y) as (o & Y1). apply (I1 _ _ Y1).
    + intros s l e Y. destruct (K2 _ _ _ Y) as (o & Y1). apply (I2 _ _ _ Y1).
Qed.

Lemma C10_lemma fs : Forall (library_filter U scan) fs -> forall s l, Yields s l ->
  exists o s', Emits (ApplyFilters fs s) o None s' /\ Quiet s'.
Proof. intros H s l Y. destruct (chain_keeps fs H) as [K _]. destruct (K _ _ Y) as (o & s' & A & B). eauto. Qed.

Lemma C11_lemma fs : Forall (library_filter U scan) fs -> forall s l e, Fails s l e ->
  (exists o, Fails (ApplyFilters fs s) o e) /\
  (exists s', Returns (fun n => ToSlice n (ApplyFilters fs s)) (([], Some e), s')) /\
  (exists s', Returns (fun n => StreamString n (ApplyFilters fs s)) ((EmptyString, Some e), s')) /\
  (exists c s', Returns (fun n => Count n (ApplyFilters fs s)) ((c, Some e), s')) /\
  (forall w acc log ws, good_writer w acc log -> (forall ws v m we ws', wwrite w ws v <> ((m, Some we), ws')) ->
     exists n ws' s', Returns (fun fuel => WriteTo w fuel ws (ApplyFilters fs s)) ((n, Some e), (ws', s'))) /\
  (forall l', ~ Yields (ApplyFilters fs s) l').
Proof.
  intros H s l e Y. destruct (chain_keeps fs H) as [_ K]. destruct (K _ _ _ Y) as (o & s' & A).
  split; [exists o, s'; exact A|].
  split; [destruct (ToSlice_emits _ _ _ _ A) as (s2 & _ & R); exists s2; exact R|].
  split; [destruct (StreamString_emits _ _ _ _ A) as (s2 & _ & R); exists s2; exact R|].
  split; [destruct (Count_emits _ _ _ _ A) as (s2 & _ & R); exists (length o), s2; exact R|].
  split.
  { intros w acc log ws G NF. destruct (WriteTo_emits w acc log G _ _ _ _ ws A) as (n & err & ws' & s2 & R & _ & _ & C).
    destruct C as [(_ & _ & ->)|(l1 & t & l2 & ws1 & m & we & _ & _ & C & _)]; [|exfalso; eapply NF, C].
    exists n, ws', s2. exact R. }
  intros l' Y'. eapply Yields_not_Fails; [exact Y'|exists s'; exact A].
Qed.

Lemma C12_lemma fs : Forall (library_filter U scan) fs -> forall s l, Yields s l ->
  exists o, Yields (ApplyFilters fs s) o /\
  (exists s', Returns (fun n => ToSlice n (ApplyFilters fs s)) ((o, None), s')) /\
  (exists s', Returns (fun n => StreamString n (ApplyFilters fs s)) ((text o, None), s')) /\
  (exists s', Returns (fun n => Count n (ApplyFilters fs s)) ((length o, None), s')).
Proof.
  intros H s l Y. destruct (chain_keeps fs H) as [K _]. destruct (K _ _ Y) as (o & s' & A & Q).
  exists o. split; [exists s'; auto|].
  split; [destruct (ToSlice_emits _ _ _ _ A) as (s2 & _ & R); exists s2; exact R|].
  split; [destruct (StreamString_emits _ _ _ _ A) as (s2 & _ & R); exists s2; exact R|].
  destruct (Count_emits _ _ _ _ A) as (s2 & _ & R); exists s2; exact R.
Qed.
End Chain.
