(** * PropRestLemmas: proofs for C108. *)

From Verif Require Import Base Utf8 Unicode UnicodeData Token Queue Stream StreamSpec ListSpec Tokenizer Words Filters Ascii Trie Synonyms
  FilterSpec SynSpec ChainSpec Sources StreamProofs TokenProofs FilterProofs ChainProofs TrieProofs SynProofs BuildProofs
  WordsProofs PropSynLemmas PropSynLemmas2 PropTextLemmas PropStableLemmas.

(** For every [l] there is an output that is delivered before the error by sources failing after [l], and first by all sources that begin with [l]. *)
Definition settled (F : Filter) : Prop := forall l, exists o,
  (forall s e, Fails s l e -> Fails (F s) o e) /\ (forall s s1, Pulls s l s1 -> exists w, Pulls (F s) o w).

Lemma transforms_settled F f : transforms F f -> settled F.
Proof. intros (_ & B & C) l. exists (f l). split; [intros s e; apply B|intros s s1; apply C]. Qed.

Lemma sigil_pulls_lost U sigil legal (SN : sigil <> EmptyString) n : forall l s s1 prev, length l <= n -> Pulls s l s1 ->
  exists st, PullsX (sigil_next U sigil legal) (mkSS s prev []) (sigil_out U sigil legal true prev l) st.
Proof.
  induction n as [|n IH]; intros l s s1 prev L P.
  - destruct l; [|cbn in L; lia]. eexists. constructor.
  - destruct l as [|c l]; [eexists; constructor|].
    inversion P as [|s0 t s2 l0 s3 N P2]; subst. cbn in L. cbn [sigil_out].
    destruct (boundary_ok prev && seqb (tvalue c) sigil) eqn:B.
    + destruct l as [|b l]; [eexists; constructor|].
      inversion P2 as [|s0 t s4 l0 s5 N2 P3]; subst. cbn in L.
      destruct (legal (tvalue b)) eqn:Lg.
      * destruct (IH l _ _ (Some (merged U sigil b)) ltac:(lia) P3) as (st & X). exists st.
        eapply PX_cons; [eapply sigil_merge; eassumption|exact X].
      * destruct (IH l _ _ (Some c) ltac:(lia) P3) as (st & X). exists st.
        apply (PullsX_app _ _ [c; b] _ _ _ (sigil_queue U sigil legal _ _ _ _ _ _ N N2 B Lg) X).
    + destruct (IH l _ _ (Some c) ltac:(lia) P2) as (st & X). exists st.
      eapply PX_cons; [eapply sigil_plain; eassumption|exact X].
Qed.

Lemma sigil_settled U sigil legal : sigil <> EmptyString -> settled (Sigil U sigil legal).
Proof.
  intros SN l. exists (sigil_out U sigil legal true None l). split; [intros s e; now apply Sigil_fails|].
  intros s s1 P. destruct (sigil_pulls_lost U sigil legal SN _ _ _ _ None (le_n _) P) as (st & X).
  destruct (PullsX_Pulls _ _ _ _ X None None) as (a & b & Y). eexists. exact Y.
Qed.

Section Chain.
Variables (U : unicode) (scan : oracle).
Hypothesis SC : scanner_ok scan.
Hypothesis CS : uIsSpace U 44 = false.

Lemma library_settled F : library_filter U scan F -> settled F.
Proof.
  destruct 1.
  - destruct (plain_transforms U scan SC F H) as (f & T). eapply transforms_settled, T.
  - now apply sigil_settled.
  - apply sigil_settled. discriminate.
  - apply sigil_settled. discriminate.
  - intros l. exists []. split; [intros s e; eapply C42_synonyms_lemma; eauto|]. intros s s1 _. eexists. constructor.
Qed.

Lemma chain_settled fs : Forall (library_filter U scan) fs -> settled (ApplyFilters fs).
Proof.
  induction 1 as [|F fs H Hs IH].
  - intros l. exists l. split; [auto|]. intros s s1 P. exists s1. exact P.
  - intros l. destruct (library_settled F H l) as (o & A & B), (IH o) as (o2 & C & D). exists o2. split.
    + intros s e Y. exact (C _ _ (A _ _ Y)).
    + intros s s1 P. destruct (B _ _ P) as (w & Q). exact (D _ _ Q).
Qed.

Lemma Pulls_Emits_prefix s l s1 : Pulls s l s1 -> forall o e s2, Emits s o e s2 -> exists x, o = l ++ x.
Proof.
  induction 1 as [s|s t s1 l s2 N P IH]; intros o e s3 E; [now exists o|].
  destruct N as [n N]. inversion E as [s0 s' [m M]|s0 o0 e0 s' [m M]|s0 t0 s4 l0 e0 s5 [m M] E2]; subst;
    pose proof (N (n + m) ltac:(lia)) as X; rewrite M in X by lia; inversion X; subst.
  destruct (IH _ _ _ E2) as (x & ->). now exists x.
Qed.

Lemma C108_streams fs : Forall (library_filter U scan) fs -> forall s l e o, Fails s l e -> Fails (ApplyFilters fs s) o e ->
  (forall s2 s2', Pulls s2 l s2' -> exists w, Pulls (ApplyFilters fs s2) o w) /\
  (forall s2 x o2, Yields s2 (l ++ x) -> Yields (ApplyFilters fs s2) o2 -> exists y, o2 = o ++ y) /\
  (forall s2 x e2 o2, Fails s2 (l ++ x) e2 -> Fails (ApplyFilters fs s2) o2 e2 -> exists y, o2 = o ++ y).
Proof.
  intros H s l e o Y O. destruct (chain_settled fs H l) as (o' & A & B). destruct (Fails_inj _ _ _ _ _ O (A _ _ Y)) as [-> _].
  split; [exact B|]. split.
  - intros s2 x o2 (s3 & E & _) (w2 & E2 & _). destruct (Emits_Pulls_inv _ _ _ _ _ E) as (s4 & P & _). destruct (B _ _ P) as (w & Q).
    eapply Pulls_Emits_prefix; eauto.
  - intros s2 x e2 o2 (s3 & E) (w2 & E2). destruct (Emits_Pulls_inv _ _ _ _ _ E) as (s4 & P & _). destruct (B _ _ P) as (w & Q).
    eapply Pulls_Emits_prefix; eauto.
Qed.
End Chain.

(** Texts *)
Lemma part_fails U s xs zs e : Yields (TokenizeString U words_scan s) (xs ++ zs) -> Fails (Tokenize U words_scan (mkReader (text xs) (Some e))) xs e.
Proof.
  intros Y. pose proof (C76_lemma U s [] xs zs Y) as Y1. pose proof (TokenizeString_yields U words_scan words_scan_ok (text xs) eq_refl) as Y2.
  rewrite (Yields_inj _ _ _ Y1 Y2) at 2. apply (Tokenize_fails U words_scan (mkReader (text xs) (Some e)) e); [|reflexivity].
  apply (scan_nonempty _ words_scan_ok).
Qed.

Lemma C108_texts U : uIsSpace U 44 = false -> forall fs, Forall (library_filter U words_scan) fs ->
  forall s xs zs, Yields (TokenizeString U words_scan s) (xs ++ zs) ->
  forall e, exists o x, Fails (ApplyFilters fs (Tokenize U words_scan (mkReader (text xs) (Some e)))) o e /\
    Yields (ApplyFilters fs (TokenizeString U words_scan s)) (o ++ x).
Proof.
  intros CS fs H s xs zs Y e. pose proof (part_fails U s xs zs e Y) as F.
  destruct (chain_keeps U words_scan words_scan_ok CS fs H) as [K1 K2]. destruct (K1 _ _ Y) as (o2 & Y2), (K2 _ _ _ F) as (o & F2).
  destruct (C108_streams U words_scan words_scan_ok CS fs H _ _ _ _ F F2) as (_ & P & _). destruct (P _ _ _ Y Y2) as (x & ->). exists o, x. now split.
Qed.

Lemma C108_refutation : ~ (forall fs, Forall (library_filter go_unicode words_scan) fs -> forall a b e o o2,
  Fails (ApplyFilters fs (Tokenize go_unicode words_scan (mkReader a (Some e)))) o e ->
  Yields (ApplyFilters fs (TokenizeString go_unicode words_scan (a ++ b))) o2 -> exists y, text o2 = (text o ++ y)%string).
Proof.
  intros H. set (ws := ["them"%string]). set (e := "gone"%string).
  assert (F : Fails (Tokenize go_unicode words_scan (mkReader "the" (Some e))) [tok "the"%string] e).
  { apply (Tokenize_fails go_unicode words_scan (mkReader "the" (Some e)) e); [apply (scan_nonempty _ words_scan_ok)|reflexivity]. }
  assert (Y : Yields (TokenizeString go_unicode words_scan "them") [tok "them"%string]).
  { exact (TokenizeString_yields go_unicode words_scan words_scan_ok "them" eq_refl). }
  destruct (H [Stopwords go_unicode ws false]) with (a := "the"%string) (b := "m"%string) (e := e) (o := [tok "the"%string]) (o2 := @nil token) as (y & E).
  - constructor; [apply LF_plain, PF_stopwords|constructor].
  - exact (Stopwords_fails go_unicode ws false _ _ _ F).
  - exact (Stopwords_yields go_unicode ws false _ _ Y).
  - vm_compute in E. discriminate.
Qed.

(** Used in the examples: the texts that are delivered, and the error. *)
Fixpoint read_all (n : nat) (s : TokenStream) : list string * option error :=
  match n with
  | O => ([], None)
  | S n' => match Next 40 s with
    | Ret ((Some t, None), s') => let '(l, e) := read_all n' s' in (tvalue t :: l, e)
    | Ret ((_, e), _) => ([], e)
    | _ => ([], None)
    end
  end.
