(** * PropExactLemmas: exactly which texts are replaced as a whole (C40) *)

From Verif Require Import Base Utf8 Unicode Token Stream StreamSpec Tokenizer Trie Synonyms FilterSpec SynSpec ChainSpec
  StreamProofs TokenProofs FilterProofs TrieProofs SynProofs BuildProofs PropSynLemmas PropSynLemmas2 PropSynLemmas3.

Section Exact.
Variable U : unicode.
Variable ic : bool.
Variable ig : list N.
Variable D : dictionary.
Hypothesis NE : forall l c, In (l, c) D -> spelled U ic ig l <> [] /\ c <> EmptyString.

Lemma exact_means p c : means U ic ig D p c -> p <> [] /\ c <> EmptyString.
Proof. intros M. destruct (means_in _ _ _ _ _ _ M) as (l & I & <-). apply (NE _ _ I). Qed.

Lemma window_front n : forall l, exists r, l = window n l ++ r.
Proof.
  intros l. revert n. induction l as [|t l IH]; intros n; [exists []; destruct n; reflexivity|].
  destruct n as [|n]; [exists (t :: l); reflexivity|]. cbn [window]. destruct (tpunct t); [exists (t :: l); reflexivity|].
  destruct (tspace t).
  - destruct (IH (S n)) as (r & E). exists r. cbn [app]. congruence.
  - destruct (IH n) as (r & E). exists r. cbn [app]. congruence.
Qed.

Lemma rewrites_empty n l : rewrites U ic ig D n l [] -> l = [].
Proof.
  intros R. inversion R as [| | |t l' k c g o Hw L G R' E1 E2]; [reflexivity|].
  apply app_eq_nil in E2 as [-> _]. destruct G as [[-> _]|(m & _ & E)]; [|discriminate].
  destruct (exact_means _ _ (proj2 (proj1 L))) as [_ N]. congruence.
Qed.

Lemma exact_forward n l m c : (forall t, In t l -> tlemma t = false) -> lemma_of U c m -> rewrites U ic ig D n l [m] ->
  exists l0 x, l = l0 ++ [x] /\ word (hd x l) /\ window n l = l /\ letters U ic ig (tvalue x) <> [] /\ means U ic ig D (spelled U ic ig l) c.
Proof.
  intros NL (Vm & Lm & _) R.
  inversion R as [|t l' o Hw R' E1 E2|t l' o Hw NM R' E1 E2|t l' k c' g o Hw L G R' E1 E2]; subst.
  - rewrite (NL m (or_introl eq_refl)) in Lm. discriminate.
  - rewrite (NL m (or_introl eq_refl)) in Lm. discriminate.
  - pose proof L as [[[K1 K2] M] Lo]. destruct (exact_means _ _ M) as [Pn Cn].
    destruct G as [[-> _]|(m' & (Vm' & _) & ->)]; [congruence|]. injection E2 as -> ->. subst c'.
    apply rewrites_empty in R'. remember (t :: l') as l eqn:El.
    destruct (window_front n l) as (r & Er).
    assert (length l <= k) by (rewrite <- (firstn_skipn k l), R', app_nil_r; apply firstn_le_length).
    assert (r = []) as ->.
    { assert (length l = length (window n l) + length r) as E by (rewrite Er at 1; apply app_length). destruct r; [reflexivity|cbn in E; lia]. }
    rewrite app_nil_r in Er. rewrite <- Er in *. rewrite firstn_all2 in M, Pn by lia.
    destruct (exists_last (l := l)) as (l0 & x & E); [subst; discriminate|].
    exists l0, x. split; [exact E|]. split; [subst l; exact Hw|]. split; [first [reflexivity|symmetry; exact Er]|]. split; [|exact M].
    intros Z. destruct l0 as [|y l0].
    + apply Pn. rewrite E. unfold spelled. cbn. now rewrite Z.
    + assert (Es : spelled U ic ig l = spelled U ic ig (y :: l0)).
      { rewrite E. unfold spelled. rewrite flat_map_app. cbn [flat_map]. rewrite Z, !app_nil_r. reflexivity. }
      assert (Ef : firstn (length (y :: l0)) l = y :: l0) by (rewrite E, firstn_app, Nat.sub_diag, firstn_all; cbn [firstn]; apply app_nil_r).
      assert (Ln : length l = S (length (y :: l0))) by (rewrite E, app_length; cbn; lia).
      assert (Ma : matches U ic ig D l (length (y :: l0)) (tvalue m)) by (split; [cbn in *; lia|rewrite Ef, <- Es; exact M]).
      destruct (Lo _ _ Ma ltac:(lia)) as [H1|[_ H1]]; [|lia].
      rewrite Ef in H1. rewrite firstn_all2 in H1 by lia. rewrite Es in H1. lia.
Qed.

Lemma exact_backward n l0 x c m : lemma_of U c m -> word (hd x (l0 ++ [x])) -> window n (l0 ++ [x]) = l0 ++ [x] ->
  letters U ic ig (tvalue x) <> [] -> means U ic ig D (spelled U ic ig (l0 ++ [x])) c -> rewrites U ic ig D n (l0 ++ [x]) [m].
Proof.
  intros Lm Hw W Lx M. remember (l0 ++ [x]) as l eqn:E.
  assert (Ln : length l = S (length l0)) by (rewrite E, app_length; cbn; lia).
  assert (LO : longest U ic ig D l (length l) c).
  { split; [split; [lia|rewrite firstn_all; exact M]|]. intros k' c' [[A B] M'] N. left. rewrite firstn_all.
    assert (Sh : length (spelled U ic ig l0) < length (spelled U ic ig l)).
    { rewrite E. unfold spelled. rewrite flat_map_app, app_length. cbn [flat_map]. rewrite app_nil_r.
      destruct (letters U ic ig (tvalue x)); [congruence|cbn; lia]. }
    assert (firstn k' l = firstn k' l0) as -> by (rewrite E, firstn_app; replace (k' - length l0) with 0 by lia; cbn; apply app_nil_r).
    eapply Nat.le_lt_trans; [|exact Sh]. unfold spelled. rewrite <- (firstn_skipn k' l0) at 2. rewrite flat_map_app, app_length. lia. }
  destruct l as [|t l]; [discriminate|]. cbn [hd] in Hw.
  apply (RW_replace U ic ig D n t l (length (t :: l)) c [m] []); [exact Hw|rewrite W; exact LO|right; eauto|].
  rewrite skipn_all. constructor.
Qed.
End Exact.

Lemma C40_exact U scan : scanner_ok scan -> uIsSpace U 44 = false ->
  forall ms ic ig D b, dictionary_of (key_tokens U scan) ms D -> built_from U scan ms ic ig b ->
  (forall l c, In (l, c) D -> spelled U ic ig l <> [] /\ c <> EmptyString) ->
  forall n, widest D n -> forall l c s, (forall t, In t l -> tlemma t = false) -> Yields s l ->
  ((exists m, lemma_of U c m /\ Yields (SynFilter U None b s) [m]) <->
   exists l0 x, l = l0 ++ [x] /\ word (hd x l) /\ window n l = l /\ letters U ic ig (tvalue x) <> [] /\
     means U ic ig D (spelled U ic ig l) c).
Proof.
  intros SC CS ms ic ig D b Dd B NE n Wn l c s NL Y.
  destruct (C38_lemma U scan SC CS _ _ _ _ _ Dd B) as (n' & W & K).
  assert (n' = n) as -> by (eapply widest_ext; [|exact W|exact Wn]; tauto).
  destruct (K _ _ Y) as (o & R & Yo). split.
  - intros (m & Lm & Ym). rewrite (Yields_inj _ _ _ Yo Ym) in R. eapply exact_forward; eauto.
  - intros (l0 & x & -> & Hw & Wi & Lx & M). destruct (exact_means U ic ig D NE _ _ M) as [_ Cn].
    destruct (NewToken_cons U c true Cn) as (m & Nm). destruct (NewToken_value _ _ _ _ Nm) as (V1 & V2 & _).
    assert (Lm : lemma_of U c m) by (repeat split; assumption).
    exists m. split; [exact Lm|]. assert (R' : rewrites U ic ig D n (l0 ++ [x]) [m]) by (eapply exact_backward; eauto).
    rewrite (C38_functional _ _ _ _ _ _ _ _ R' R). exact Yo.
Qed.
