(** * PropOrderLemmas: proofs for C71 - C73. *)

From Verif Require Import Base Utf8 Unicode UnicodeData Token Stream StreamSpec ListSpec Tokenizer Words Filters Ascii Trie Synonyms
  FilterSpec SynSpec ChainSpec Sources StreamProofs TokenProofs FilterProofs ChainProofs TrieProofs SynProofs BuildProofs
  WordsProofs PropSynLemmas PropSynLemmas2 PropSynLemmas5 LineSpec OrderSpec PropLineLemmas.

(** ** C71 *)

Lemma filter_first p l : (forall t t', In t l -> In t' l -> tvalue t = tvalue t' -> p t = p t') -> forall seen,
  filter p (first_occurrences seen l) = first_occurrences seen (filter p l).
Proof.
  intros H. assert (G : forall l', (forall t, In t l' -> In t l) -> forall seen seen',
    (forall t, In t l' -> p t = true -> smem (tvalue t) seen = smem (tvalue t) seen') ->
    filter p (first_occurrences seen l') = first_occurrences seen' (filter p l')).
  { induction l' as [|t l' IH]; intros I seen seen' S; [reflexivity|]. cbn [first_occurrences filter].
    assert (I' : forall u, In u l' -> In u l) by (intros; apply I; now right).
    destruct (p t) eqn:P.
    - cbn [first_occurrences]. rewrite <- (S t) by (try (now left); exact P). destruct (smem (tvalue t) seen) eqn:M.
      + apply IH; [exact I'|]. intros u Iu Pu. apply S; [now right|exact Pu].
      + cbn [filter]. rewrite P. f_equal. apply IH; [exact I'|]. intros u Iu Pu. cbn [smem existsb]. unfold smem in *. cbn [existsb]. f_equal. apply S; [now right|exact Pu].
    - destruct (smem (tvalue t) seen) eqn:M; cbn [filter]; rewrite ?P.
      + apply IH; [exact I'|]. intros u Iu Pu. apply S; [now right|exact Pu].
      + apply IH; [exact I'|]. intros u Iu Pu. rewrite <- (S u) by (try (now right); exact Pu). unfold smem. cbn [existsb].
        destruct (seqb (tvalue u) (tvalue t)) eqn:Q; [|reflexivity]. apply seqb_eq in Q.
        rewrite (H u t) in Pu; [congruence| | |exact Q]; apply I; [now right|now left]. }
  intros seen. apply G; auto.
Qed.

Lemma transforms_commute F G f g l : transforms F f -> transforms G g -> f (g l) = g (f l) -> either_order F G l.
Proof.
  intros (A & B & _) (C & D & _) E s. split; [intros Y|intros e Y]; exists (f (g l)).
  - split; [auto|]. rewrite E. auto.
  - split; [auto|]. rewrite E. auto.
Qed.

Lemma selecting_transforms U F : selecting U F -> exists p, transforms F (filter p).
Proof. destruct 1; eexists; [apply where_transforms|apply where_transforms|apply where_transforms|apply stop_transforms]. Qed.

Lemma filter_comm {A} (p q : A -> bool) l : filter p (filter q l) = filter q (filter p l).
Proof. rewrite !filter_filter. apply filter_ext. intros x. apply andb_comm. Qed.

Lemma C71_selecting U F G : selecting U F -> selecting U G -> forall l, either_order F G l.
Proof.
  intros A B l. destruct (selecting_transforms U F A) as (p & P), (selecting_transforms U G B) as (q & Q).
  eapply transforms_commute; [exact P|exact Q|apply filter_comm].
Qed.

Lemma C71_fused p q s l : (Yields s l -> exists l', Yields (Where p (Where q s)) l' /\ Yields (Where (fun t => q t && p t) s) l') /\
  (forall e, Fails s l e -> exists l', Fails (Where p (Where q s)) l' e /\ Fails (Where (fun t => q t && p t) s) l' e).
Proof.
  split; [intros Y|intros e Y]; exists (filter p (filter q l)).
  - split; [now apply where_transforms, where_transforms|]. rewrite filter_filter. now apply where_transforms.
  - split; [now apply where_transforms, where_transforms|]. rewrite filter_filter. now apply where_transforms.
Qed.

Lemma made_class U t t' : made U t -> made U t' -> tvalue t = tvalue t' -> tpunct t = tpunct t' /\ tspace t = tspace t'.
Proof.
  unfold made. rewrite !NewToken_uncached. unfold new_token_uncached. intros A B E. rewrite E in A.
  destruct (Nat.eqb (String.length (tvalue t')) 0); [discriminate|].
  destruct (seqb (tvalue t') crlf); apply (f_equal (option_map (fun x => (tpunct x, tspace x)))) in A, B; cbn in A, B;
    injection A as <- <-; injection B as <- <-; split; reflexivity.
Qed.

Lemma C71_distinct U l : 
  (forall p, (forall t t', In t l -> In t' l -> tvalue t = tvalue t' -> p t = p t') -> either_order (Where p) Distinct l) /\
  (forall words ic, either_order (Stopwords U words ic) Distinct l) /\
  (Forall (made U) l -> either_order Words Distinct l).
Proof.
  split; [|split].
  - intros p H. eapply transforms_commute; [apply where_transforms|apply distinct_transforms|]. now apply filter_first.
  - intros words ic. eapply transforms_commute; [apply stop_transforms|apply distinct_transforms|]. apply filter_first.
    intros t t' _ _ E. unfold stop_pred. now rewrite E.
  - intros M. eapply transforms_commute; [apply where_transforms|apply distinct_transforms|]. apply filter_first.
    intros t t' I I' E. rewrite Forall_forall in M. destruct (made_class U t t' (M _ I) (M _ I') E) as [P S]. cbn beta. cbv beta delta [is_word]. rewrite ?P, ?S. reflexivity.
Qed.

Lemma C71_refutation : ~ (forall U l, Forall (made U) l -> either_order Lemmas Distinct l).
Proof.
  intros H. destruct (H go_unicode [tok "a"; lem "a"]%string) with (s := source [tok "a"; lem "a"]%string None) as [X _].
  - repeat constructor; vm_compute; reflexivity.
  - destruct (X (source_yields _)) as (l' & Y1 & Y2).
    pose proof (proj1 (where_transforms tlemma) _ _ (proj1 distinct_transforms _ _ (source_yields [tok "a"; lem "a"]%string))) as Z1.
    pose proof (proj1 distinct_transforms _ _ (proj1 (where_transforms tlemma) _ _ (source_yields [tok "a"; lem "a"]%string))) as Z2.
    pose proof (Yields_inj _ _ _ Y1 Z1) as E1. pose proof (Yields_inj _ _ _ Y2 Z2) as E2.
    rewrite E1 in E2. vm_compute in E2. discriminate.
Qed.
(** ** C72 *)

Lemma F2_length {A B} (R : A -> B -> Prop) l m : Forall2 R l m -> length l = length m.
Proof. induction 1; cbn; congruence. Qed.

Section Similar.
Variables (U : unicode) (ic : bool) (ig : list N).
Notation sim := (similar U ic ig).

Lemma sim_spelled l1 l2 : Forall2 sim l1 l2 -> spelled U ic ig l1 = spelled U ic ig l2.
Proof. induction 1 as [|t u l1 l2 (_ & _ & L) F IH]; [reflexivity|]. unfold spelled in *. cbn [flat_map]. now rewrite L, IH. Qed.

Lemma sim_firstn k l1 l2 : Forall2 sim l1 l2 -> Forall2 sim (firstn k l1) (firstn k l2).
Proof. intros F. revert k. induction F; intros [|k]; cbn [firstn]; auto. Qed.
Lemma sim_skipn k l1 l2 : Forall2 sim l1 l2 -> Forall2 sim (skipn k l1) (skipn k l2).
Proof. intros F. revert k. induction F; intros [|k]; cbn [skipn]; auto. Qed.

Lemma sim_window l1 l2 : Forall2 sim l1 l2 -> forall n, Forall2 sim (window n l1) (window n l2).
Proof.
  induction 1 as [|t u l1 l2 S F IH]; intros [|n]; cbn [window]; auto. destruct S as (P & Q & L).
  rewrite <- P, <- Q. destruct (tpunct t) eqn:Pt; [constructor|]. destruct (tspace t) eqn:Qt; constructor; unfold similar; auto.
  - rewrite Pt, Qt. auto.
  - rewrite Pt, Qt. auto.
Qed.

Lemma sim_matches D l1 l2 k c : Forall2 sim l1 l2 -> matches U ic ig D l1 k c -> matches U ic ig D l2 k c.
Proof.
  intros F (K & M). pose proof (F2_length _ _ _ F) as L. split; [lia|]. now rewrite <- (sim_spelled _ _ (sim_firstn k _ _ F)).
Qed.

Lemma sim_sym l1 l2 : Forall2 sim l1 l2 -> Forall2 sim l2 l1.
Proof. induction 1 as [|t u l1 l2 (A & B & C) F IH]; constructor; [split; [auto|split; auto]|exact IH]. Qed.

Lemma sim_longest D l1 l2 k c : Forall2 sim l1 l2 -> longest U ic ig D l1 k c -> longest U ic ig D l2 k c.
Proof.
  intros F (M & H). split; [eapply sim_matches; eassumption|]. intros k' c' M' N.
  rewrite <- !(sim_spelled _ _ (sim_firstn _ _ _ F)). eapply H; [|exact N]. eapply sim_matches; [apply sim_sym; exact F|exact M'].
Qed.

Lemma sim_word t u : sim t u -> word t -> word u.
Proof. intros (A & B & _) [P S]. split; congruence. Qed.

Lemma sim_rewrites D n l1 o1 : rewrites U ic ig D n l1 o1 -> forall l2, Forall2 sim l1 l2 ->
  exists o2, rewrites U ic ig D n l2 o2 /\ same_replacements U l1 l2 o1 o2.
Proof.
  induction 1 as [|t l o W R IH|t l o W N R IH|t l k c g o W L C R IH]; intros l2 F.
  - inversion F; subst. exists []. split; constructor.
  - inversion F as [|? u ? l2' S F']; subst. destruct (IH _ F') as (o2 & R2 & SR). exists (u :: o2). split; [|now constructor].
    apply RW_pass; [|exact R2]. intros Wu. apply W. apply (sim_word u); [|exact Wu]. destruct S as (A & B & E). split; auto.
  - inversion F as [|? u ? l2' S F']; subst. destruct (IH _ F') as (o2 & R2 & SR). exists (u :: o2). split; [|now constructor].
    apply RW_keep; [now apply (sim_word t)| |exact R2]. intros k c M. apply (N k c). eapply sim_matches; [|exact M]. apply sim_sym, sim_window, F.
  - destruct (IH _ (sim_skipn k _ _ F)) as (o2 & R2 & SR). exists (g ++ o2).
    assert (K : 1 <= k <= length (t :: l)). { split; [apply L|]. apply (longest_length U ic ig D n _ _ c L). }
    split.
    + inversion F as [|? u ? l2' S F']; subst. eapply RW_replace; [now apply (sim_word t)| |exact C|exact R2].
      eapply sim_longest; [|exact L]. now apply sim_window.
    + rewrite <- (firstn_skipn k (t :: l)), <- (firstn_skipn k l2). eapply SR_replace; [| |exact C|exact SR].
      * rewrite !firstn_length. now rewrite (F2_length _ _ _ F).
      * destruct k; [lia|]. discriminate.
Qed.
End Similar.

Lemma C72_lemma : forall U scan, scanner_ok scan -> uIsSpace U 44 = false ->
  forall ms ic ig D b, dictionary_of (key_tokens U scan) ms D -> built_from U scan ms ic ig b ->
  forall s1 l1 s2 l2, Yields s1 l1 -> Yields s2 l2 -> Forall2 (similar U ic ig) l1 l2 ->
  exists o1 o2, Yields (SynFilter U None b s1) o1 /\ Yields (SynFilter U None b s2) o2 /\ same_replacements U l1 l2 o1 o2.
Proof.
  intros U scan OK Cm ms ic ig D b Dd B s1 l1 s2 l2 Y1 Y2 F.
  destruct (C38_lemma U scan OK Cm _ _ _ _ _ Dd B) as (n & W & H).
  destruct (H _ _ Y1) as (o1 & R1 & O1), (H _ _ Y2) as (o2 & R2 & O2).
  destruct (sim_rewrites U ic ig D n _ _ R1 _ F) as (o2' & R2' & SR).
  rewrite <- (rewrites_inj U ic ig D n (S (length l2)) _ _ _ (le_n _) R2 R2') in SR. eauto.
Qed.

(** ** C73 *)

Section Agree.
Variables (U : unicode) (ic : bool) (ig : list N) (D D' : dictionary).

Lemma agree_rewrites n l o : rewrites U ic ig D n l o ->
  (forall g c, run_of g l -> means U ic ig D (spelled U ic ig g) c <-> means U ic ig D' (spelled U ic ig g) c) ->
  rewrites U ic ig D' n l o.
Proof.
  assert (RW : forall l k, 1 <= k <= length (window n l) -> run_of (firstn k (window n l)) l).
  { intros l' k K. split.
    - intros E. apply (f_equal (@length _)) in E. rewrite firstn_length in E. cbn in E. lia.
    - exists [], (skipn k l'). cbn. rewrite <- (firstn_skipn k l') at 1. f_equal. rewrite <- (window_prefix n l'), firstn_firstn. f_equal. lia. }
  assert (MA : forall l', (forall g c, run_of g l' -> means U ic ig D (spelled U ic ig g) c <-> means U ic ig D' (spelled U ic ig g) c) ->
    forall k c, matches U ic ig D (window n l') k c <-> matches U ic ig D' (window n l') k c).
  { intros l' A k c. split; intros [K M]; (split; [exact K|]); apply (A _ c (RW _ _ K)); exact M. }
  assert (SUB : forall l' k, (forall g c, run_of g l' -> means U ic ig D (spelled U ic ig g) c <-> means U ic ig D' (spelled U ic ig g) c) ->
    forall g c, run_of g (skipn k l') -> means U ic ig D (spelled U ic ig g) c <-> means U ic ig D' (spelled U ic ig g) c).
  { intros l' k A g c [N (a & b & E)]. apply A. split; [exact N|]. exists (firstn k l' ++ a), b. rewrite <- app_assoc, <- E. symmetry. apply firstn_skipn. }
  induction 1 as [|t l o W R IH|t l o W N R IH|t l k c g o W L C R IH]; intros A.
  - constructor.
  - apply RW_pass; [exact W|]. apply IH. exact (SUB (t :: l) 1 A).
  - apply RW_keep; [exact W| |apply IH; exact (SUB (t :: l) 1 A)]. intros k c M. apply (N k c). now apply (MA _ A).
  - eapply RW_replace; [exact W| |exact C|apply IH; exact (SUB (t :: l) k A)]. destruct L as [M H]. split; [now apply (MA _ A)|].
    intros k' c' M' Ne. apply (H k' c'); [now apply (MA _ A)|exact Ne].
Qed.
End Agree.

Lemma dictionary_app toks ms1 D1 : dictionary_of toks ms1 D1 -> forall ms2 D2, dictionary_of toks ms2 D2 -> dictionary_of toks (ms1 ++ ms2) (D1 ++ D2).
Proof. induction 1 as [|k c ms l D1 D2 T E R IH]; intros ms2 D3 H; [exact H|]. cbn [app]. rewrite <- app_assoc. eapply Dict_cons; eauto. Qed.

Lemma means_app U ic ig D E p c : (forall l' c', In (l', c') E -> spelled U ic ig l' <> p) -> means U ic ig D p c <-> means U ic ig (D ++ E) p c.
Proof.
  intros N. split.
  - intros (a & l & b & -> & S & L). exists a, l, (b ++ E). rewrite <- app_assoc. split; [reflexivity|]. split; [exact S|].
    intros l' c' I. apply in_app_iff in I. destruct I as [I|I]; [eapply L; exact I|eapply N; exact I].
  - revert N. induction E as [|[le ce] E IH] using rev_ind; intros N; [now rewrite app_nil_r|]. intros (a & l & b & Eq & S & L).
    assert (b = [] \/ exists b', b = b' ++ [(le, ce)]) as [->|(b' & ->)].
    { destruct b as [|x b _] using rev_ind; [now left|]. right. exists b. f_equal. rewrite app_assoc in Eq. replace (a ++ (l, c) :: b ++ [x]) with ((a ++ (l, c) :: b) ++ [x]) in Eq by now rewrite <- app_assoc.
      apply app_inj_tail in Eq. now destruct Eq as [_ <-]. }
    + rewrite app_assoc in Eq. apply app_inj_tail in Eq. destruct Eq as [_ Eq]. injection Eq as -> ->. exfalso. apply (N l c); [apply in_app_iff; right; now left|exact S].
    + apply IH; [intros l' c' I; apply (N l' c'); apply in_app_iff; now left|].
      exists a, l, b'. rewrite app_assoc in Eq. replace (a ++ (l, c) :: b' ++ [(le, ce)]) with ((a ++ (l, c) :: b') ++ [(le, ce)]) in Eq by now rewrite <- app_assoc.
      apply app_inj_tail in Eq. destruct Eq as [Eq _]. split; [exact Eq|]. split; [exact S|]. intros l' c' I. apply (L l' c'). apply in_app_iff. now left.
Qed.

Lemma C73_lemma : forall U scan, scanner_ok scan -> uIsSpace U 44 = false ->
  forall ms extra ic ig D E b b', dictionary_of (key_tokens U scan) ms D -> dictionary_of (key_tokens U scan) extra E ->
  built_from U scan ms ic ig b -> built_from U scan (ms ++ extra) ic ig b' ->
  (forall n l c, widest D n -> In (l, c) E -> words_in l <= n) ->
  forall s l, Yields s l -> (forall g l' c', run_of g l -> In (l', c') E -> spelled U ic ig l' <> spelled U ic ig g) ->
  exists o, Yields (SynFilter U None b s) o /\ Yields (SynFilter U None b' s) o.
Proof.
  intros U scan OK Cm ms extra ic ig D E b b' Dd De B B' Wd s l Y N.
  destruct (C38_lemma U scan OK Cm _ _ _ _ _ Dd B) as (n & W & H).
  destruct (C38_lemma U scan OK Cm _ _ _ _ _ (dictionary_app _ _ _ Dd _ _ De) B') as (n' & W' & H').
  assert (n' = n) as ->.
  { specialize (fun l c => Wd n l c W). destruct W as (A1 & A2 & A3), W' as (B1 & B2 & B3).
    assert (n <= n'). { destruct A3 as [->|(l' & c' & I & <-)]; [exact B1|]. apply (B2 l' c'). apply in_app_iff. now left. }
    assert (n' <= n). { destruct B3 as [->|(l' & c' & I & <-)]; [exact A1|]. apply in_app_iff in I. destruct I as [I|I]; [exact (A2 _ _ I)|exact (Wd _ _ I)]. }
    lia. }
  destruct (H _ _ Y) as (o & R & O), (H' _ _ Y) as (o' & R' & O'). exists o. split; [exact O|].
  rewrite (rewrites_inj U ic ig (D ++ E) n (S (length l)) l o o' (le_n _)); [exact O'| |exact R'].
  eapply agree_rewrites; [exact R|]. intros g c G. apply means_app. intros l' c' I. now apply (N g l' c').
Qed.

Lemma C73_refutation :
  ~ (forall U scan ms extra ic ig D E b b', scanner_ok scan -> uIsSpace U 44 = false ->
     dictionary_of (key_tokens U scan) ms D -> dictionary_of (key_tokens U scan) extra E ->
     built_from U scan ms ic ig b -> built_from U scan (ms ++ extra) ic ig b' ->
     forall s l, Yields s l -> (forall g l' c', run_of g l -> In (l', c') E -> spelled U ic ig l' <> spelled U ic ig g) ->
     exists o, Yields (SynFilter U None b s) o /\ Yields (SynFilter U None b' s) o).
Proof.
  intros H.
  set (ms := [("ruby", "Ruby")]%string). set (ex := [("a c d e", "x")]%string). set (ig := [32%N]).
  set (l := [tok "r"; tok " "; tok "u"; tok " "; tok "b"; tok " "; tok "y"]%string).
  destruct (concrete_built ms true ig) as (D & b & Dd & B), (concrete_built ex true ig) as (E & x & De & _), (concrete_built (ms ++ ex) true ig) as (D' & b' & _ & B').
  destruct (H go_unicode words_scan ms ex true ig D E b b' words_scan_ok go_comma Dd De B B' (source l None) l) as (o & O & O').
  - apply source_yields.
  - rewrite (dictionary_entries _ _ De). intros g l' c' [_ (a & z & Eq)] I S.
    assert (Hs : In 97%N (spelled go_unicode true ig l')).
    { assert (I2 : In (l', c') [([tok "a"; tok " "; tok "c"; tok " "; tok "d"; tok " "; tok "e"]%string, "x"%string)]) by exact I.
      destruct I2 as [I2|[]]. injection I2 as <- _. vm_compute. now left. }
    rewrite S in Hs. assert (Hl : In 97%N (spelled go_unicode true ig l)).
    { rewrite Eq. unfold spelled in *. rewrite !flat_map_app. apply in_app_iff. right. apply in_app_iff. now left. }
    vm_compute in Hl. intuition discriminate.
  - pose proof (Yields_inj _ _ _ O (run_yields _ _ _ _ B _ _ (source_yields l))) as E1.
    pose proof (Yields_inj _ _ _ O' (run_yields _ _ _ _ B' _ _ (source_yields l))) as E2.
    rewrite E1 in E2. vm_compute in E2. discriminate.
Qed.
