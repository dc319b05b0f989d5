(** * Lemmas behind C64 and C65 *)

From Coq Require Import Permutation.
From Verif Require Import Base Utf8 Unicode UnicodeData Token Stream StreamSpec Tokenizer Words Trie Synonyms FilterSpec SynSpec ChainSpec
  DictSpec Dictionaries NbaTable SoTable StreamProofs TokenProofs FilterProofs WordsProofs TrieProofs SynProofs BuildProofs Sources PropSynLemmas PropSynLemmas2 DictProofs.

Lemma word_dec t : word t \/ ~ word t.
Proof. unfold word. destruct (tpunct t), (tspace t); intuition congruence. Qed.

Lemma firstn_window n l k : k <= length (window n l) -> firstn k l = firstn k (window n l).
Proof. intros H. rewrite <- (window_prefix n l). rewrite firstn_firstn. f_equal. lia. Qed.

(** ** C65: filtering twice *)

Section Idem.
Variable U : unicode.
Variable ic : bool.
Variable ig : list N.
Variable D : dictionary.
Variable n : nat.
Hypothesis NE : forall l c, In (l, c) D -> c <> EmptyString.
Hypothesis FA : forall l c l' c' u v, In (l, c) D -> In (l', c') D -> spelled U ic ig l = u ++ letters U ic ig c' ++ v ->
  u = [] /\ v = [] /\ means U ic ig D (letters U ic ig c') c'.

Lemma means_entry p c : means U ic ig D p c -> exists l, In (l, c) D /\ spelled U ic ig l = p.
Proof. apply means_in. Qed.

(** A prefix of the output is a prefix of the input, or has a replacement in it. *)
Lemma rewrites_prefix l o : rewrites U ic ig D n l o -> forall k, firstn k o = firstn k l \/
  exists a m b c x, firstn k o = a ++ m :: b /\ In (x, c) D /\ tvalue m = c.
Proof.
  induction 1 as [|t l o W R IH|t l o W M R IH|t l k0 c g o W L C R IH]; intros k; [left; reflexivity| | |].
  1,2: destruct k as [|k]; [left; reflexivity|]; destruct (IH k) as [E|(a & m & b & c & x & E & I & V)]; cbn [firstn];
    [left; now rewrite E|right; exists (t :: a), m, b, c, x; rewrite E; auto].
  destruct (means_entry _ _ (proj2 (proj1 L))) as (x & I & _).
  destruct C as [[-> _]|(m & (V & _) & ->)]; [destruct (NE _ _ I eq_refl)|].
  destruct k as [|k]; [left; reflexivity|]. right. exists [], m, (firstn k o), c, x. auto.
Qed.

Lemma window_mono k : forall m x y, firstn k x = firstn k y -> k <= length (window m x) -> k <= length (window m y).
Proof.
  induction k as [|k IH]; intros m x y E L; [lia|]. destruct m as [|m]; [destruct x; cbn in L; lia|]. destruct x as [|t x]; [cbn in L; lia|].
  destruct y as [|t' y]; [discriminate|]. cbn [firstn] in E. injection E as <- E. cbn [window] in *.
  destruct (tpunct t); [cbn in L; lia|]. destruct (tspace t); cbn [length] in *; apply le_n_S; eapply IH; eauto; lia.
Qed.

Lemma rewrites_twice l o : rewrites U ic ig D n l o -> (forall t, In t l -> word t -> letters U ic ig (tvalue t) <> []) ->
  rewrites U ic ig D n o o.
Proof.
  induction 1 as [|t l o W R IH|t l o W M R IH|t l k0 c g o W L C R IH]; intros Lw.
  - constructor.
  - apply RW_pass; [exact W|]. apply IH. intros; apply Lw; [now right|assumption].
  - apply RW_keep; [exact W| |apply IH; intros; apply Lw; [now right|assumption]].
    intros k c [K Me]. destruct k as [|k]; [lia|]. rewrite <- firstn_window in Me by lia.
    destruct (rewrites_prefix _ _ R k) as [E|(a & m & b & c' & x & E & I & V)].
    + assert (E' : firstn (S k) (t :: o) = firstn (S k) (t :: l)) by (cbn [firstn]; now rewrite E).
      assert (K' : S k <= length (window n (t :: l))) by (eapply window_mono; [exact E'|lia]).
      apply (M (S k) c). split; [lia|]. rewrite <- firstn_window, <- E' by exact K'. exact Me.
    + destruct (means_entry _ _ Me) as (y & Iy & Ey). cbn [firstn] in Ey. rewrite E in Ey.
      change (t :: a ++ m :: b) with ([t] ++ a ++ [m] ++ b) in Ey. rewrite !spelled_app in Ey. unfold spelled in Ey at 2 4. cbn [flat_map] in Ey.
      rewrite !app_nil_r, app_assoc, V in Ey.
      destruct (FA _ _ _ _ _ _ Iy I Ey) as (X & _). apply app_eq_nil in X as [X _]. apply (Lw t (or_introl eq_refl) W X).
  - destruct (means_entry _ _ (proj2 (proj1 L))) as (x & I & _).
    destruct C as [[-> _]|(m & Lm & ->)]; [destruct (NE _ _ I eq_refl)|]. cbn [app].
    assert (IH' : rewrites U ic ig D n o o).
    { apply IH. intros t' It. apply Lw. rewrite <- (firstn_skipn k0 (t :: l)). apply in_or_app. now right. }
    destruct (word_dec m) as [Wm|Wm]; [|apply RW_pass; assumption].
    pose proof (SearchCanonical_spec U ic ig _ D (window n (m :: o)) (repr_addall U ic ig D _ [] (repr_New U ic ig))) as F.
    match type of F with finds _ _ _ _ _ ?r => destruct r as [[[|] c'] k'] end; cbn [finds] in F.
    + assert (Vm : tvalue m = c) by apply Lm.
      pose proof (proj1 F) as [K Me]. destruct (means_entry _ _ Me) as (y & Iy & Ey).
      destruct k' as [|k']; [lia|]. rewrite <- firstn_window in Ey, Me by lia. cbn [firstn] in Ey, Me.
      change (m :: firstn k' o) with ([m] ++ firstn k' o) in Ey. rewrite spelled_app in Ey. unfold spelled in Ey at 2. cbn [flat_map] in Ey. rewrite app_nil_r, Vm in Ey.
      destruct (FA _ _ _ _ [] _ Iy I Ey) as (_ & X & Mc).
      assert (Sp : spelled U ic ig (m :: firstn k' o) = letters U ic ig c) by (unfold spelled in *; cbn [flat_map]; rewrite X, app_nil_r, Vm; reflexivity).
      assert (c' = c) as -> by (rewrite Sp in Me; exact (means_inj U ic ig D _ _ _ Me Mc)).
      assert (k' = 0) as ->.
      { destruct k' as [|k']; [reflexivity|exfalso]. destruct F as [_ F].
        assert (M1 : matches U ic ig D (window n (m :: o)) 1 c).
        { split; [lia|]. rewrite <- firstn_window by lia. cbn [firstn]. unfold spelled. cbn [flat_map]. rewrite app_nil_r, Vm. exact Mc. }
        destruct (F 1 c M1 ltac:(lia)) as [F1|[_ F1]]; [|lia]. rewrite <- !firstn_window in F1 by lia. cbn [firstn] in F1, Sp.
        rewrite Sp in F1. unfold spelled in F1. cbn [flat_map] in F1. rewrite app_nil_r, Vm in F1. lia. }
      change (m :: o) with ([m] ++ o) at 2. eapply RW_replace; [exact Wm|exact F|right; exists m; auto|]. exact IH'.
    + apply RW_keep; [exact Wm| |exact IH']. intros k1 c1. apply F.
Qed.
End Idem.

Lemma C65_lemma (U : unicode) (scan : oracle) : scanner_ok scan -> uIsSpace U 44 = false ->
  forall ms ic ig D b, dictionary_of (key_tokens U scan) ms D -> built_from U scan ms ic ig b ->
  (forall l c, In (l, c) D -> c <> EmptyString) ->
  (forall l c l' c' u v, In (l, c) D -> In (l', c') D -> spelled U ic ig l = u ++ letters U ic ig c' ++ v ->
     u = [] /\ v = [] /\ means U ic ig D (letters U ic ig c') c') ->
  forall s l, Yields s l -> (forall t, In t l -> word t -> letters U ic ig (tvalue t) <> []) ->
  exists o, Yields (SynFilter U None b s) o /\ Yields (SynFilter U None b (SynFilter U None b s)) o.
Proof.
  intros SC CS ms ic ig D b Dd B NE FA s l Y Lw. destruct (C38_lemma U scan SC CS _ _ _ _ _ Dd B) as (n & _ & H).
  destruct (H _ _ Y) as (o & R & Yo). exists o. split; [exact Yo|]. destruct (H _ _ Yo) as (o2 & R2 & Yo2).
  rewrite (rewrites_inj U ic ig D n (S (length o)) _ _ _ (le_n _) R2 (rewrites_twice U ic ig D n NE FA _ _ R Lw)) in Yo2. exact Yo2.
Qed.

(** ** C64: listed synonyms *)

Section Listed.
Variable U : unicode.
Variable scan : oracle.
Hypothesis SC : scanner_ok scan.
Hypothesis CS : uIsSpace U 44 = false.

Lemma separated_in {A} (sep : A -> Prop) l ps : separated sep l ps -> forall p x, In p ps -> In x p -> In x l.
Proof.
  induction 1 as [l H|a s l r H S R IH]; intros p x Ip Ix.
  - destruct Ip as [<-|[]]. exact Ix.
  - destruct Ip as [<-|Ip]; apply in_or_app; [now left|right; right; eauto].
Qed.

(** Tokens of synonyms are no lemmas, and the first is no space. *)
Lemma dictionary_tokens ms D : dictionary_of (key_tokens U scan) ms D -> forall l c, In (l, c) D ->
  (forall t, In t l -> tlemma t = false) /\ (forall t r, l = t :: r -> tspace t = false).
Proof.
  intros Dd. pose proof (dictionary_fine U scan SC ms D Dd) as F. induction Dd as [|k c ms l D1 D2 Y E Dd IH]; intros l' c' I; [destruct I|].
  apply in_app_or in I as [I|I]; [|apply (IH (fun k c H => F k c (or_intror H)) _ _ I)].
  destruct E as (ps & syns & Se & Tr & ->). apply in_map_iff in I as (x & X & I). injection X as -> ->.
  assert (T : exists p, In p ps /\ trimmed p l').
  { clear - Tr I. induction Tr as [|p s ps syns T Tr IH]; [destruct I|]. destruct I as [->|I]; [exists p; auto using in_eq|].
    destruct (IH I) as (q & Q1 & Q2). exists q. auto using in_cons. }
  destruct T as (p & Ip & (sp & -> & _ & Hd)). split; [|exact Hd]. intros t It.
  assert (In t l) as J by (eapply separated_in; eauto; apply in_or_app; now right).
  assert (El : l = map (piece_token U) (seg scan k)) by (eapply Yields_inj; [exact Y|apply TokenizeString_yields; [exact SC|apply (F k _ (or_introl eq_refl))]]).
  rewrite El in J. apply in_map_iff in J as (v & <- & Iv).
  pose proof (piece_token_ok U v (scan_nonempty _ SC _ _ Iv)) as P. destruct (NewToken_value _ _ _ _ P) as (_ & L & _). exact L.
Qed.

Section Filter.
Variables (ms : list (string * string)) (ic : bool) (ig : list N) (D : dictionary) (b : built).
Hypothesis Dd : dictionary_of (key_tokens U scan) ms D.
Hypothesis B : built_from U scan ms ic ig b.
Hypothesis UN : unambiguous U ic ig D.

Lemma rewrites_empty n l : rewrites U ic ig D n l [] -> l = [].
Proof.
  intros R. remember [] as o eqn:E. destruct R as [|t l o W R|t l o W M R|t l k c g o W L C R]; try discriminate; [reflexivity|].
  destruct (means_in _ _ _ _ _ _ (proj2 (proj1 L))) as (x & I & _).
  destruct C as [[-> _]|(m & _ & ->)]; [destruct (proj2 (proj2 UN _ _ I) eq_refl)|discriminate].
Qed.

Lemma C64_lemma l c s : In (l, c) D -> (forall t, In t l -> tspace t = true -> letters U ic ig (tvalue t) = []) -> Yields s l ->
  (exists m, lemma_of U c m /\ Yields (SynFilter U None b s) [m]) <->
  (forall t, In t l -> tpunct t = false) /\ exists l0 x, l = l0 ++ [x] /\ letters U ic ig (tvalue x) <> [].
Proof.
  intros I Sp Y. destruct (dictionary_tokens _ _ Dd _ _ I) as [NL NS]. destruct UN as [UN1 UN2].
  assert (CF : conflict_free U ic ig D) by exact UN1.
  split.
  - intros (m & Lm & Ym).
    assert (NP : forall t, In t l -> tpunct t = false).
    { intros t It. destruct (tpunct t) eqn:P; [exfalso|reflexivity]. pose proof It as It0. apply in_split in It as (a & c' & ->).
      destruct (C39_lemma U scan SC CS _ _ _ _ _ Dd B) as (C1 & _).
      destruct (C1 s a t c' (source a None) (source c' None) P Y (source_yields _) (source_yields _)) as (oa & oc & _ & _ & Y2).
      pose proof (Yields_inj _ _ _ Ym Y2) as E. destruct oa as [|z oa]; cbn [app] in E.
      - injection E as -> _. destruct Lm as (_ & Lm & _). rewrite (NL t It0) in Lm. discriminate.
      - injection E as _ E. destruct oa; discriminate. }
    split; [exact NP|].
    destruct l as [|t0 l1] using rev_ind; [destruct (proj1 (UN2 _ _ I) eq_refl)|]. clear IHl1. exists l1, t0. split; [reflexivity|]. intros Lx.
    destruct (C38_lemma U scan SC CS _ _ _ _ _ Dd B) as (n & W & H). destruct (H _ _ Y) as (o & R & Yo).
    pose proof (Yields_inj _ _ _ Ym Yo) as <-.
    assert (Sl : spelled U ic ig (l1 ++ [t0]) = spelled U ic ig l1).
    { rewrite spelled_app. unfold spelled at 2. cbn [flat_map]. rewrite Lx. now rewrite !app_nil_r. }
    assert (N1 : l1 <> []) by (intros ->; apply (proj1 (UN2 _ _ I)); rewrite Sl; reflexivity).
    remember (l1 ++ [t0]) as l eqn:El. remember [m] as o eqn:Eo.
    destruct R as [|t l' o W1 R|t l' o W1 M R|t l' k c1 g o W1 L C R]; [destruct l1; discriminate| | |].
    + apply W1. split; [apply NP; now left|eapply NS; reflexivity].
    + injection Eo as -> _. destruct Lm as (_ & Lm & _). rewrite (NL m (or_introl eq_refl)) in Lm. discriminate.
    + destruct (means_in _ _ _ _ _ _ (proj2 (proj1 L))) as (x & Ix & _).
      destruct C as [[-> _]|(m' & _ & ->)]; [destruct (proj2 (UN2 _ _ Ix) eq_refl)|]. injection Eo as -> ->.
      apply rewrites_empty in R. destruct L as [[K Me] L].
      assert (Kl : length (t :: l') <= k).
      { rewrite <- (firstn_skipn k (t :: l')) at 1. rewrite R, app_nil_r, firstn_length. lia. }
      pose proof (window_length n (t :: l')) as Wl. rewrite El, app_length in Kl, Wl. cbn [length] in Kl, Wl.
      assert (L1 : 1 <= length l1) by (destruct l1; [congruence|cbn; lia]). rewrite El in K.
      assert (Ek : k = S (length l1)) by lia.
      assert (Ef : forall j, j <= length (window n (l1 ++ [t0])) -> firstn j (window n (l1 ++ [t0])) = firstn j (l1 ++ [t0])) by (intros; symmetry; apply firstn_window; assumption).
      assert (Efk : firstn k (l1 ++ [t0]) = l1 ++ [t0]) by (apply firstn_all2; rewrite app_length; cbn; lia).
      assert (Ef1 : firstn (length l1) (l1 ++ [t0]) = l1) by (rewrite firstn_app, Nat.sub_diag, firstn_all; cbn; apply app_nil_r).
      rewrite El in Me, L. rewrite Ef, Efk in Me by lia.
      destruct (L (length l1) c1) as [L2|[_ L2]]; [| |rewrite !Ef, Efk, Ef1, <- El, Sl in L2 by lia; lia|lia].
      * split; [lia|]. rewrite Ef, Ef1, <- Sl by lia. rewrite El. exact Me.
      * lia.
  - intros (NP & l0 & x & -> & Lx).
    assert (Wx : word x).
    { split; [apply NP, in_or_app; right; now left|]. destruct (tspace x) eqn:S; [|reflexivity]. destruct Lx. apply Sp; [apply in_or_app; right; now left|exact S]. }
    assert (Wh : word (hd x (l0 ++ [x]))).
    { destruct l0 as [|t l0]; [exact Wx|]. cbn. split; [apply NP; now left|eapply NS; reflexivity]. }
    destruct (C38_lemma U scan SC CS _ _ _ _ _ Dd B) as (n & W & _).
    destruct (C40_partial_lemma U scan SC CS ms ic ig D b Dd B l0 [] x c n W Wh Wx NP) with (s := s) (sr := source [] None) as (m & o & Lm & Yo & Ym); auto.
    + apply (proj1 (proj2 W) _ _ I).
    + apply (means_free _ _ _ _ _ _ CF). eauto.
    + apply (UN2 _ _ I).
    + rewrite app_nil_r. exact Y.
    + apply source_yields.
    + exists m. split; [exact Lm|]. replace o with (@nil token) in Ym; [exact Ym|].
      destruct (C38_lemma U scan SC CS _ _ _ _ _ Dd B) as (n' & _ & H). destruct (H _ _ (source_yields [])) as (o' & R & Y').
      inversion R; subst. exact (Yields_inj _ _ _ Y' Yo).
Qed.
End Filter.
End Listed.
