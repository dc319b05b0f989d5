(** * PropWiderLemmas: synonyms that only make the filter look at more words (C73). *)

From Verif Require Import Base Utf8 Unicode UnicodeData Token Stream StreamSpec ListSpec Tokenizer Words Filters Trie Synonyms
  FilterSpec SynSpec ChainSpec Sources StreamProofs TokenProofs FilterProofs ChainProofs TrieProofs SynProofs BuildProofs
  WordsProofs PropSynLemmas PropSynLemmas2 PropSynLemmas5 LineSpec OrderSpec PropOrderLemmas.

Lemma window_firstn l : forall n k, window n (firstn k l) = firstn k (window n l).
Proof.
  induction l as [|t l IH]; intros n k; [destruct n, k; reflexivity|].
  destruct k; [destruct n; reflexivity|]. cbn [firstn]. destruct n; [reflexivity|]. cbn [window].
  destruct (tpunct t); [reflexivity|]. destruct (tspace t); cbn [firstn]; f_equal; apply IH.
Qed.

Lemma window_window l : forall n m, n <= m -> window n (window m l) = window n l.
Proof.
  induction l as [|t l IH]; intros n m H; [destruct m; reflexivity|]. destruct n; [destruct (window m (t :: l)); reflexivity|].
  destruct m as [|m]; [lia|]. cbn [window]. destruct (tpunct t) eqn:P; [reflexivity|]. destruct (tspace t) eqn:Sp.
  - cbn [window]. rewrite P, Sp. f_equal. apply (IH (S n) (S m)). exact H.
  - cbn [window]. rewrite P, Sp. f_equal. apply (IH n m). lia.
Qed.

Section Wider.
Variables (U : unicode) (ic : bool) (ig : list N) (D : dictionary) (n m : nat).
Hypothesis NM : n <= m.
Hypothesis N1 : 1 <= n.
Notation sp := (spelled U ic ig).

Definition gains_nothing (l : list token) : Prop :=
  forall g c, run_of g l -> window m g = g -> means U ic ig D (sp g) c -> sp (window n g) = sp g.

Section At.
Variables (t : token) (l : list token).
Hypothesis W : word t.
Hypothesis G : gains_nothing (t :: l).
Notation w := (window n (t :: l)).
Notation w' := (window m (t :: l)).

Lemma w_prefix : w = firstn (length w) w'.
Proof.
  pose proof (window_window (t :: l) n m NM) as E.
  pose proof (window_prefix n w') as P. rewrite E in P. now symmetry.
Qed.

Lemma w_length : length w <= length w'.
Proof. rewrite w_prefix at 1. rewrite firstn_length. lia. Qed.

Lemma w_some : 1 <= length w.
Proof.
  destruct W as [W1 W2]. destruct n as [|n0]; [lia|]. cbn [window]. rewrite W1, W2. cbn. lia.
Qed.

Lemma firstn_w k : k <= length w -> firstn k w = firstn k w'.
Proof. intros K. rewrite w_prefix at 1. rewrite firstn_firstn. f_equal. lia. Qed.

Lemma match_up k c : matches U ic ig D w k c -> matches U ic ig D w' k c.
Proof.
  intros [K M]. pose proof w_length. split; [lia|]. rewrite <- firstn_w by lia. exact M.
Qed.

Lemma match_down k c : matches U ic ig D w' k c ->
  (k <= length w /\ matches U ic ig D w k c) \/ (length w < k /\ matches U ic ig D w (length w) c /\ sp (firstn (length w) w) = sp (firstn k w')).
Proof.
  intros [K M]. destruct (le_lt_dec k (length w)) as [L|L]; [left; split; [exact L|]; split; [lia|]; now rewrite firstn_w|]. right.
  assert (E : sp (window n (firstn k w')) = sp (firstn k w')).
  { apply (G _ c); [| |exact M].
    - split; [intros E; apply (f_equal (@length _)) in E; rewrite firstn_length in E; cbn [length] in E; lia|].
      exists [], (skipn k (t :: l)). cbn [app]. rewrite <- (firstn_skipn k (t :: l)) at 1. f_equal.
      rewrite <- (window_prefix m (t :: l)), firstn_firstn. f_equal. lia.
    - rewrite window_firstn. now rewrite window_window by lia. }
  rewrite window_firstn, window_window in E by exact NM.
  assert (F : firstn k w = w) by (apply firstn_all2; lia). rewrite F in E. rewrite firstn_all. split; [exact L|]. split; [|exact E].
  split; [pose proof w_some; lia|]. rewrite firstn_all, E. exact M.
Qed.

Lemma none_up : (forall k c, ~ matches U ic ig D w k c) -> forall k c, ~ matches U ic ig D w' k c.
Proof. intros H k c M. destruct (match_down k c M) as [[_ M']|(_ & M' & _)]; exact (H _ _ M'). Qed.

Lemma longest_up k c : longest U ic ig D w k c -> longest U ic ig D w' k c.
Proof.
  intros [M H]. split; [now apply match_up|]. intros k' c' M' Ne. pose proof (proj1 M) as K.
  rewrite <- (firstn_w k) by lia.
  destruct (match_down k' c' M') as [[L M2]|(L & M2 & E)].
  - rewrite <- (firstn_w k') by lia. exact (H k' c' M2 Ne).
  - rewrite <- E. destruct (Nat.eq_dec (length w) k) as [X|X].
    + right. rewrite X. split; [reflexivity|lia].
    + destruct (H _ _ M2 X) as [H1|[H1 H2]]; [left; exact H1|right; split; [exact H1|lia]].
Qed.
End At.

Lemma wider_rewrites l o : rewrites U ic ig D n l o -> gains_nothing l -> rewrites U ic ig D m l o.
Proof.
  assert (SUB : forall l' k, gains_nothing l' -> gains_nothing (skipn k l')).
  { intros l' k A g c [X (a & b & E)]. apply A. split; [exact X|]. exists (firstn k l' ++ a), b. rewrite <- app_assoc, <- E. symmetry. apply firstn_skipn. }
  induction 1 as [|t l o W R IH|t l o W N R IH|t l k c g o W L C R IH]; intros A.
  - constructor.
  - apply RW_pass; [exact W|]. apply IH. exact (SUB (t :: l) 1 A).
  - apply RW_keep; [exact W|exact (none_up t l W A N)|apply IH; exact (SUB (t :: l) 1 A)].
  - eapply RW_replace; [exact W|exact (longest_up t l W A k c L)|exact C|apply IH; exact (SUB (t :: l) k A)].
Qed.
End Wider.

Lemma widest_app D E n m : widest D n -> widest (D ++ E) m -> n <= m.
Proof. intros (A1 & A2 & A3) (B1 & B2 & B3). destruct A3 as [->|(l' & c' & I & <-)]; [exact B1|]. apply (B2 l' c'). apply in_app_iff. now left. Qed.

Lemma C73_meaning_lemma : forall U scan, scanner_ok scan -> uIsSpace U 44 = false ->
  forall ms extra ic ig D E b', dictionary_of (key_tokens U scan) ms D -> dictionary_of (key_tokens U scan) extra E ->
  built_from U scan (ms ++ extra) ic ig b' ->
  forall s l, Yields s l -> (forall g l' c', run_of g l -> In (l', c') E -> spelled U ic ig l' <> spelled U ic ig g) ->
  exists m o, widest (D ++ E) m /\ Yields (SynFilter U None b' s) o /\ rewrites U ic ig D m l o.
Proof.
  intros U scan OK Cm ms extra ic ig D E b' Dd De B' s l Y N.
  destruct (C38_lemma U scan OK Cm _ _ _ _ _ (dictionary_app _ _ _ Dd _ _ De) B') as (m & W' & H').
  destruct (H' _ _ Y) as (o & R & O). exists m, o. split; [exact W'|]. split; [exact O|].
  eapply agree_rewrites; [exact R|]. intros g c G. symmetry. apply means_app. intros l' c' I. now apply (N g l' c').
Qed.

Lemma C73_wider_lemma : forall U scan, scanner_ok scan -> uIsSpace U 44 = false ->
  forall ms extra ic ig D E b b' n m, dictionary_of (key_tokens U scan) ms D -> dictionary_of (key_tokens U scan) extra E ->
  built_from U scan ms ic ig b -> built_from U scan (ms ++ extra) ic ig b' -> widest D n -> widest (D ++ E) m ->
  forall s l, Yields s l -> (forall g l' c', run_of g l -> In (l', c') E -> spelled U ic ig l' <> spelled U ic ig g) ->
  (forall g c, run_of g l -> window m g = g -> means U ic ig D (spelled U ic ig g) c -> spelled U ic ig (window n g) = spelled U ic ig g) ->
  exists o, Yields (SynFilter U None b s) o /\ Yields (SynFilter U None b' s) o.
Proof.
  intros U scan OK Cm ms extra ic ig D E b b' n m Dd De B B' Wn Wm s l Y N G.
  destruct (C38_lemma U scan OK Cm _ _ _ _ _ Dd B) as (n0 & W & H). destruct (H _ _ Y) as (o & R & O). exists o. split; [exact O|].
  destruct (C73_meaning_lemma U scan OK Cm ms extra ic ig D E b' Dd De B' s l Y N) as (m0 & o' & W' & O' & R').
  assert (n0 = n) as -> by (pose proof (widest_app D [] n n0 Wn ltac:(now rewrite app_nil_r)); pose proof (widest_app D [] n0 n W ltac:(now rewrite app_nil_r)); lia).
  assert (m0 = m) as -> by (pose proof (widest_app (D ++ E) [] m m0 Wm ltac:(now rewrite app_nil_r)); pose proof (widest_app (D ++ E) [] m0 m W' ltac:(now rewrite app_nil_r)); lia).
  rewrite (rewrites_inj U ic ig D m (S (length l)) l o o' (le_n _)); [exact O'| |exact R'].
  apply (wider_rewrites U ic ig D n m (widest_app _ _ _ _ Wn Wm) (proj1 Wn)); assumption.
Qed.
