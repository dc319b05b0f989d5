(** * Lemmas behind C30, C34 - C36, C38 - C42 *)

From Coq Require Import Permutation.
From Verif Require Import Base Utf8 Unicode UnicodeData Token Stream StreamSpec ListSpec Queue Tokenizer Words Filters Ascii
  ContractionsTable Trie Synonyms FilterSpec SynSpec ChainSpec StreamProofs TokenProofs FilterProofs AsciiProofs WordsProofs
  TrieProofs SynProofs BuildProofs Sources.

Section Lemmas.
Variable U : unicode.
Variable scan : oracle.
Hypothesis SC : scanner_ok scan.
Hypothesis CS : uIsSpace U 44 = false.

Lemma C35_lemma ms ic ig : (forall k c, In (k, c) ms -> serr (scan (mkReader k None)) = None) ->
  exists D tr n, dictionary_of (key_tokens U scan) ms D /\ built_from U scan ms ic ig (mkBuilt (Some tr) n) /\
    (forall l, finds U ic ig D l (SearchCanonical U tr l)) /\ widest D n.
Proof.
  intros H. destruct (build_ok U scan SC CS ms ic ig H) as (D & tr & n & A & B & R & W).
  exists D, tr, n. split; [exact A|]. split; [exact B|]. split; [|exact W]. intros l. apply SearchCanonical_spec, R.
Qed.

Lemma built_inv ms ic ig D b : dictionary_of (key_tokens U scan) ms D -> built_from U scan ms ic ig b ->
  exists tr n, b = mkBuilt (Some tr) n /\ (forall l, finds U ic ig D l (SearchCanonical U tr l)) /\ widest D n.
Proof.
  intros Dd B. destruct (build_inv U scan SC CS _ _ _ _ _ _ Dd B) as (_ & tr & n & -> & R & W).
  exists tr, n. split; [reflexivity|]. split; [|exact W]. intros l. apply SearchCanonical_spec, R.
Qed.

Lemma C36_lemma ms1 ms2 ic ig D1 D2 b1 b2 : Permutation ms1 ms2 ->
  dictionary_of (key_tokens U scan) ms1 D1 -> dictionary_of (key_tokens U scan) ms2 D2 ->
  (forall l1 c1 l2 c2, In (l1, c1) D1 -> In (l2, c2) D1 -> spelled U ic ig l1 = spelled U ic ig l2 -> c1 = c2) ->
  built_from U scan ms1 ic ig b1 -> built_from U scan ms2 ic ig b2 ->
  forall s, Same (SynFilter U None b1 s) (SynFilter U None b2 s).
Proof.
  intros P Dd1 Dd2 F1 B1 B2 s.
  destruct (built_inv _ _ _ _ _ Dd1 B1) as (tr1 & n1 & -> & S1 & W1).
  destruct (built_inv _ _ _ _ _ Dd2 B2) as (tr2 & n2 & -> & S2 & W2).
  assert (E : forall x, In x D1 <-> In x D2).
  { intros x. split; [apply (dictionary_perm U scan ms1 ms2)|apply (dictionary_perm U scan ms2 ms1)]; auto using Permutation_sym. }
  rewrite (widest_ext _ _ _ _ E W1 W2). apply syn_same.
  assert (F2 : conflict_free U ic ig D2).
  { intros l1 c1 l2 c2 I1 I2. apply F1; apply E; assumption. }
  intros l. apply (finds_inj U ic ig D1 l); [apply S1|].
  eapply finds_ext; [|apply S2]. intros p c. rewrite (means_free _ _ _ _ _ _ F2), (means_free _ _ _ _ _ _ F1).
  split; intros (l' & I & Q); exists l'; split; auto; apply E; auto.
Qed.

Lemma C38_lemma ms ic ig D b : dictionary_of (key_tokens U scan) ms D -> built_from U scan ms ic ig b ->
  exists n, widest D n /\ forall s l, Yields s l -> exists o, rewrites U ic ig D n l o /\ Yields (SynFilter U None b s) o.
Proof.
  intros Dd B. destruct (built_inv _ _ _ _ _ Dd B) as (tr & n & -> & S & W). exists n. split; [exact W|].
  intros s l Y. eapply Syn_yields; eauto. apply W.
Qed.

(** ** C39 *)

Lemma window_punct n l p r : tpunct p = true -> window n (l ++ p :: r) = window n l.
Proof.
  intros P. revert n. induction l as [|t l IH]; intros [|n]; try reflexivity.
  - cbn [app window]. rewrite P. reflexivity.
  - cbn [app window]. destruct (tpunct t); [reflexivity|]. destruct (tspace t); rewrite IH; reflexivity.
Qed.

Lemma longest_length ic ig D n l k c : longest U ic ig D (window n l) k c -> k <= length l.
Proof. intros [[K _] _]. pose proof (window_length n l). lia. Qed.

Lemma rewrites_punct ic ig D n a oa : rewrites U ic ig D n a oa -> forall p b ob, tpunct p = true ->
  rewrites U ic ig D n b ob -> rewrites U ic ig D n (a ++ p :: b) (oa ++ p :: ob).
Proof.
  induction 1 as [|t l o Hw R IH|t l o Hw NM R IH|t l k c g o Hw L G R IH]; intros p b ob P Rb.
  - cbn [app]. apply RW_pass; [|exact Rb]. unfold word. rewrite P. intros [C _]. discriminate.
  - cbn [app]. apply RW_pass; auto.
  - cbn [app]. apply RW_keep; auto. change (t :: l ++ p :: b) with ((t :: l) ++ p :: b). rewrite window_punct by exact P. exact NM.
  - rewrite <- app_assoc. pose proof (longest_length _ _ _ _ _ _ _ L) as K.
    assert (E : skipn k ((t :: l) ++ p :: b) = skipn k (t :: l) ++ p :: b).
    { rewrite skipn_app. replace (k - length (t :: l)) with 0 by lia. reflexivity. }
    change ((t :: l) ++ p :: b) with (t :: (l ++ p :: b)) in *. eapply RW_replace; [exact Hw| |exact G|].
    + change (t :: l ++ p :: b) with ((t :: l) ++ p :: b). rewrite window_punct by exact P. exact L.
    + rewrite E. apply IH; auto.
Qed.

Lemma window_words n l : words_in (window n l) <= n.
Proof.
  revert n. induction l as [|t l IH]; intros [|n]; cbn [window]; try (cbn; lia).
  destruct (tpunct t) eqn:P; [cbn; lia|]. destruct (tspace t) eqn:S; rewrite words_in_cons; unfold nonword; rewrite S, P; cbn [orb].
  - apply IH.
  - specialize (IH n). lia.
Qed.

Lemma window_no_punct n l t : In t (window n l) -> tpunct t = false.
Proof.
  revert n. induction l as [|x l IH]; intros [|n]; cbn [window]; try (intros []; fail).
  destruct (tpunct x) eqn:P; [intros []|]. destruct (tspace x); intros [<-|H]; eauto.
Qed.

Lemma words_firstn k l : words_in (firstn k l) <= words_in l.
Proof. rewrite <- (firstn_skipn k l) at 2. rewrite words_in_app. lia. Qed.

Lemma in_firstn {A} k (l : list A) x : In x (firstn k l) -> In x l.
Proof. intros H. rewrite <- (firstn_skipn k l). apply in_or_app. left. exact H. Qed.

Lemma firstn_window n l k : k <= length (window n l) -> firstn k l = firstn k (window n l).
Proof. intros H. rewrite <- (window_prefix n l). rewrite firstn_firstn. f_equal. lia. Qed.

Lemma rewrites_groups ic ig D n l o : rewrites U ic ig D n l o ->
  exists gs, l = concat (map fst gs) /\ o = concat (map snd gs) /\ Forall (group_ok U n) gs.
Proof.
  induction 1 as [|t l o Hw R IH|t l o Hw NM R IH|t l k c g o Hw L G R IH].
  - exists []. auto.
  - destruct IH as (gs & -> & -> & F). exists (([t], [t]) :: gs). split; [reflexivity|]. split; [reflexivity|].
    constructor; [left; eauto|exact F].
  - destruct IH as (gs & -> & -> & F). exists (([t], [t]) :: gs). split; [reflexivity|]. split; [reflexivity|].
    constructor; [left; eauto|exact F].
  - destruct IH as (gs & E1 & -> & F). exists ((firstn k (t :: l), g) :: gs). cbn [map fst snd concat].
    split; [rewrite <- E1; symmetry; apply firstn_skipn|]. split; [reflexivity|]. constructor; [|exact F].
    pose proof L as [[K _] _]. right. exists t, (firstn (k - 1) l). cbn [fst snd].
    split; [destruct k; [lia|]; cbn [firstn]; f_equal; f_equal; lia|]. split; [exact Hw|].
    rewrite (firstn_window n) by lia.
    split; [intros x Hx; eapply window_no_punct, in_firstn, Hx|].
    split; [etransitivity; [apply words_firstn|apply window_words]|].
    destruct G as [[-> ->]|(m & G & ->)]; [auto|right; eauto].
Qed.

Lemma matches_nil ic ig l k c : ~ matches U ic ig [] l k c.
Proof. intros [_ (a & l0 & b & E & _)]. destruct a; discriminate. Qed.

Lemma rewrites_nil ic ig n l o : rewrites U ic ig [] n l o -> o = l.
Proof.
  induction 1 as [|t l o Hw R IH|t l o Hw NM R IH|t l k c g o Hw L G R IH]; [reflexivity|congruence|congruence|].
  exfalso. eapply matches_nil. apply L.
Qed.

Lemma C39_lemma ms ic ig D b : dictionary_of (key_tokens U scan) ms D -> built_from U scan ms ic ig b ->
  let F := SynFilter U None b in
  (forall s a p c sa sc, tpunct p = true -> Yields s (a ++ p :: c) -> Yields sa a -> Yields sc c ->
     exists oa oc, Yields (F sa) oa /\ Yields (F sc) oc /\ Yields (F s) (oa ++ p :: oc)) /\
  (exists n, widest D n /\ forall s l, Yields s l -> exists gs, l = concat (map fst gs) /\
     Yields (F s) (concat (map snd gs)) /\ Forall (group_ok U n) gs) /\
  (ms = [] -> forall s l, Yields s l -> Yields (F s) l).
Proof.
  intros Dd B F. destruct (built_inv _ _ _ _ _ Dd B) as (tr & n & -> & S & W).
  pose proof (Syn_yields U ic ig D tr n S (proj1 W)) as Y.
  split; [|split].
  - intros s a p c sa sc P Ys Ya Yc. destruct (Y _ _ Ya) as (oa & Ra & Oa), (Y _ _ Yc) as (oc & Rc & Oc), (Y _ _ Ys) as (o & Ro & Oo).
    exists oa, oc. split; [exact Oa|]. split; [exact Oc|].
    rewrite <- (rewrites_inj U ic ig D n (Datatypes.S (length (a ++ p :: c))) _ _ _ (le_n _) Ro
      (rewrites_punct _ _ _ _ _ _ Ra p c oc P Rc)). exact Oo.
  - exists n. split; [exact W|]. intros s l Ys. destruct (Y _ _ Ys) as (o & Ro & Oo).
    destruct (rewrites_groups _ _ _ _ _ _ Ro) as (gs & E1 & E2 & G). exists gs. split; [exact E1|]. rewrite <- E2. auto.
  - intros -> s l Ys. inversion Dd; subst. destruct (Y _ _ Ys) as (o & Ro & Oo). rewrite (rewrites_nil _ _ _ _ _ Ro) in Oo. exact Oo.
Qed.

(** ** C40 *)

Lemma window_all n l x : (forall t, In t (l ++ [x]) -> tpunct t = false) -> word x -> words_in (l ++ [x]) <= n ->
  window n (l ++ [x]) = l ++ [x].
Proof.
  intros NP [Wp Ws] L. revert n L. induction l as [|t l IH]; intros n L; cbn [app] in *.
  - rewrite words_in_cons in L. unfold nonword in L. rewrite Wp, Ws in L. cbn in L. destruct n; [lia|].
    cbn [window]. rewrite Wp, Ws. destruct n; reflexivity.
  - assert (P : tpunct t = false) by (apply NP; left; reflexivity).
    assert (NP' : forall y, In y (l ++ [x]) -> tpunct y = false) by (intros; apply NP; right; assumption).
    rewrite words_in_cons in L. unfold nonword in L. rewrite P, orb_false_r in L.
    assert (1 <= words_in (l ++ [x])).
    { rewrite words_in_app, words_in_cons. unfold nonword. rewrite Wp, Ws. cbn. lia. }
    destruct n as [|n]; [destruct (tspace t); lia|]. cbn [window]. rewrite P. destruct (tspace t); f_equal; apply IH; auto; lia.
Qed.

Lemma C40_partial_lemma ms ic ig D b : dictionary_of (key_tokens U scan) ms D -> built_from U scan ms ic ig b ->
  forall l rest x c n, widest D n ->
  word (hd x (l ++ [x])) -> word x -> (forall t, In t (l ++ [x]) -> tpunct t = false) ->
  words_in (l ++ [x]) <= n -> letters U ic ig (tvalue x) <> [] ->
  means U ic ig D (spelled U ic ig (l ++ [x])) c -> c <> EmptyString ->
  (rest = [] \/ exists p r, rest = p :: r /\ tpunct p = true) ->
  forall s sr, Yields s ((l ++ [x]) ++ rest) -> Yields sr rest ->
  exists m o, lemma_of U c m /\ Yields (SynFilter U None b sr) o /\ Yields (SynFilter U None b s) (m :: o).
Proof.
  intros Dd B l rest x c n Wn Wh Wx NP Wc Lx M Cn Re s sr Ys Yr.
  destruct (built_inv _ _ _ _ _ Dd B) as (tr & n' & -> & S & W).
  assert (n' = n) as -> by (eapply widest_ext; [|exact W|exact Wn]; tauto).
  pose proof (Syn_yields U ic ig D tr n S (proj1 W)) as Y.
  destruct (Y _ _ Ys) as (o & Ro & Oo), (Y _ _ Yr) as (orr & Rr & Or).
  destruct (NewToken_cons U c true Cn) as (m & Nm). destruct (NewToken_value _ _ _ _ Nm) as (V1 & V2 & _).
  exists m, orr. assert (Lm : lemma_of U c m) by (split; [exact V1|split; [exact V2|exact Nm]]).
  split; [exact Lm|]. split; [exact Or|].
  assert (Wi : window n ((l ++ [x]) ++ rest) = l ++ [x]).
  { destruct Re as [->|(p & r & -> & P)]; [rewrite app_nil_r|rewrite window_punct by exact P]; apply window_all; auto. }
  assert (Lg : longest U ic ig D (l ++ [x]) (length (l ++ [x])) c).
  { split; [split; [rewrite app_length; cbn; lia|rewrite firstn_all; exact M]|].
    intros k' c' [K _] N. left. rewrite firstn_all, (spelled_app U ic ig l [x]).
    rewrite app_length in K, N. cbn [length] in K, N.
    rewrite firstn_app. replace (k' - length l) with 0 by lia. cbn [firstn]. rewrite app_nil_r.
    pose proof (spelled_firstn_le U ic ig k' l). rewrite app_length. unfold spelled at 3. cbn [flat_map]. rewrite app_nil_r.
    destruct (letters U ic ig (tvalue x)); [congruence|]. cbn [length]. lia. }
  assert (R2 : rewrites U ic ig D n ((l ++ [x]) ++ rest) ([m] ++ orr)).
  { destruct (l ++ [x]) as [|t l'] eqn:El; [destruct l; discriminate|]. cbn [app hd] in *.
    change (m :: orr) with ([m] ++ orr). eapply RW_replace; [exact Wh|rewrite Wi; exact Lg|right; exists m; auto|].
    change (t :: l' ++ rest) with ((t :: l') ++ rest).
    rewrite skipn_app, skipn_all, Nat.sub_diag. exact Rr. }
  rewrite (rewrites_inj U ic ig D n (Datatypes.S (length ((l ++ [x]) ++ rest))) _ _ _ (le_n _) Ro R2) in Oo. exact Oo.
Qed.

(** ** C42 *)

Lemma C42_synonyms_lemma ms ic ig D b : dictionary_of (key_tokens U scan) ms D -> built_from U scan ms ic ig b ->
  forall s l e, Fails s l e -> Fails (SynFilter U None b s) [] e.
Proof.
  intros Dd B s l e Y. destruct (built_inv _ _ _ _ _ Dd B) as (tr & n & -> & S & W).
  eapply Syn_fails; eauto. apply W.
Qed.
End Lemmas.
