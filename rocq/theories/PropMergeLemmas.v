(** * PropMergeLemmas: proofs for C107. *)

From Verif Require Import Base Utf8 Unicode UnicodeData Token Stream StreamSpec ListSpec Tokenizer Words Filters Ascii Trie Synonyms
  FilterSpec SynSpec ChainSpec Sources StreamProofs TokenProofs FilterProofs ChainProofs TrieProofs SynProofs BuildProofs
  WordsProofs PropSynLemmas PropSynLemmas2 PropSynLemmas5 LineSpec OrderSpec PropLineLemmas PropOrderLemmas
  NilSpec PropNilLemmas MergeSpec.

Lemma transforms_as_one F G H f g h l : transforms F f -> transforms G g -> transforms H h -> g (f l) = h l -> as_one F G H l.
Proof.
  intros (A & B & _) (C & D & _) (I & J & _) E s. split; [intros Y|intros e Y]; exists (h l).
  - split; [rewrite <- E|]; auto.
  - split; [rewrite <- E|]; auto.
Qed.

Lemma smem_app x a b : smem x (a ++ b) = smem x a || smem x b.
Proof. unfold smem. apply existsb_app. Qed.

Lemma C107_stop U ws ws' ic l : as_one (Stopwords U ws ic) (Stopwords U ws' ic) (Stopwords U (ws ++ ws') ic) l.
Proof.
  eapply transforms_as_one; [apply stop_transforms|apply stop_transforms|apply stop_transforms|].
  rewrite filter_filter. apply filter_ext. intros t. unfold stop_pred. rewrite map_app, smem_app, negb_orb. reflexivity.
Qed.

Lemma goes_app fs gs t u v : goes fs t u -> goes gs u v -> goes (fs ++ gs) t v.
Proof. induction 1 as [|f fs t u t' E G IH]; intros H; [exact H|]. cbn [app]. econstructor; eauto. Qed.

Lemma Forall2_goes_app fs gs l m o : Forall2 (goes fs) l m -> Forall2 (goes gs) m o -> Forall2 (goes (fs ++ gs)) l o.
Proof.
  intros A. revert o. induction A as [|t u l m G A IH]; intros o B; inversion B; subst; constructor; [eapply goes_app; eauto|auto].
Qed.

Lemma goes_maps fs l m : Forall2 (goes fs) l m -> Forall2 (maps_to fs) l m.
Proof. induction 1; constructor; [|assumption]. now apply goes_all. Qed.

Lemma C107_mapper fs gs l m o : Forall2 (goes fs) l m -> Forall2 (goes gs) m o -> as_one (Mapper fs) (Mapper gs) (Mapper (fs ++ gs)) l.
Proof.
  intros A B s. pose proof (goes_maps _ _ _ A) as A'. pose proof (goes_maps _ _ _ B) as B'. pose proof (goes_maps _ _ _ (Forall2_goes_app _ _ _ _ _ A B)) as C.
  split; [intros Y|intros e Y]; exists o; (split; [|first [eapply Mapper_yields; eassumption|eapply Mapper_fails; eassumption]]).
  - eapply Mapper_yields; [eapply Mapper_yields; eassumption|exact B'].
  - eapply Mapper_fails; [eapply Mapper_fails; eassumption|exact B'].
Qed.

(** A nil of the first filter is the end for the second. *)
Lemma C107_nil_lemma fs f g gs s a mid out s1 t u s2 : Forall2 (goes (fs ++ [f])) a mid -> Forall2 (goes (g :: gs)) mid out -> Pulls s a s1 ->
  Nexts s1 (Some t, None) s2 -> goes fs t u -> f u = None ->
  (exists w, Returns (fun n => ToSlice n (Mapper (g :: gs) (Mapper (fs ++ [f]) s))) ((out, None), w)) /\
  Panics (fun n => ToSlice n (Mapper ((fs ++ [f]) ++ g :: gs) s)).
Proof.
  intros A B P N G E. split.
  - assert (X : EmitsX (mapper_next (fs ++ [f])) s (mid ++ []) None s2).
    { eapply PullsX_EmitsX; [eapply PropNilLemmas.mapper_pulls; eauto|]. apply EX_eof. apply (mapper_tok _ s1 t None s2 N).
      rewrite (goes_apply _ _ _ _ G). cbn. now rewrite E. }
    rewrite app_nil_r in X. destruct (EmitsX_Emits _ _ _ _ _ X None None) as (k & e & Y).
    destruct (EmitsX_Emits _ _ _ _ _ (mapper_emits (g :: gs) _ _ _ _ Y out (goes_maps _ _ _ B)) None None) as (k' & e' & Z).
    destruct (ToSlice_emits _ _ _ _ Z) as (w & _ & R). exists w. exact R.
  - rewrite <- app_assoc. cbn [app]. apply (C19_panics_lemma fs f g gs s a out s1 t u s2); try assumption.
    replace (fs ++ f :: g :: gs) with ((fs ++ [f]) ++ g :: gs) by now rewrite <- app_assoc. eapply Forall2_goes_app; eauto.
Qed.

(** Synonyms that do not occur change nothing. *)
Lemma rewrites_none U ic ig D n l : (forall g l' c', run_of g l -> In (l', c') D -> spelled U ic ig l' <> spelled U ic ig g) ->
  rewrites U ic ig D n l l.
Proof.
  induction l as [|t l IH]; intros N; [constructor|].
  assert (N' : forall g l' c', run_of g l -> In (l', c') D -> spelled U ic ig l' <> spelled U ic ig g).
  { intros g l' c' [Ne (a & b & E)]. apply N. split; [exact Ne|]. exists (t :: a), b. now rewrite E. }
  destruct (tpunct t || tspace t) eqn:W.
  - apply RW_pass; [|apply IH, N']. unfold word. intros [P S]. rewrite P, S in W. discriminate.
  - apply orb_false_iff in W. apply RW_keep; [exact W| |apply IH, N']. intros k c [K M].
    assert (R : run_of (firstn k (window n (t :: l))) (t :: l)).
    { split.
      - intros E. apply (f_equal (@length _)) in E. rewrite firstn_length in E. cbn [length] in E. lia.
      - exists [], (skipn k (t :: l)). cbn [app]. rewrite <- (firstn_skipn k (t :: l)) at 1. f_equal. rewrite <- (window_prefix n (t :: l)), firstn_firstn. f_equal. lia. }
    destruct M as (x & l' & y & Eq & Sp & _). apply (N _ l' c R); [|exact Sp]. rewrite Eq. apply in_app_iff. right. now left.
Qed.

Lemma C107_synonyms : forall U scan, scanner_ok scan -> uIsSpace U 44 = false ->
  forall ms extra ic ig D E b b2 b', dictionary_of (key_tokens U scan) ms D -> dictionary_of (key_tokens U scan) extra E ->
  built_from U scan ms ic ig b -> built_from U scan extra ic ig b2 -> built_from U scan (ms ++ extra) ic ig b' ->
  (forall n l c, widest D n -> In (l, c) E -> words_in l <= n) ->
  forall s l o, Yields s l -> Yields (SynFilter U None b s) o ->
  (forall g l' c', run_of g l \/ run_of g o -> In (l', c') E -> spelled U ic ig l' <> spelled U ic ig g) ->
  Yields (SynFilter U None b2 (SynFilter U None b s)) o /\ Yields (SynFilter U None b' s) o.
Proof.
  intros U scan OK Cm ms extra ic ig D E b b2 b' Dd De B B2 B' Wd s l o Y O N. split.
  - destruct (C38_lemma U scan OK Cm _ _ _ _ _ De B2) as (n & W & H). destruct (H _ _ O) as (o' & R & O').
    rewrite (rewrites_inj U ic ig E n (S (length o)) o o o' (le_n _)); [exact O'| |exact R]. apply rewrites_none. intros g l' c' G. apply N. now right.
  - destruct (C73_lemma U scan OK Cm ms extra ic ig D E b b' Dd De B B' Wd s l Y) as (o' & O1 & O2); [intros g l' c' G; apply N; now left|].
    now rewrite (Yields_inj _ _ _ O O1).
Qed.

Lemma C107_refutation : ~ (forall ms extra ic ig b b2 b', built_from go_unicode words_scan ms ic ig b -> built_from go_unicode words_scan extra ic ig b2 ->
  built_from go_unicode words_scan (ms ++ extra) ic ig b' ->
  forall l, as_one (SynFilter go_unicode None b) (SynFilter go_unicode None b2) (SynFilter go_unicode None b') l).
Proof.
  intros H. set (ms := [("a", "b")]%string). set (ex := [("b", "c")]%string). set (l := [tok "a"%string]).
  destruct (concrete_built ms true []) as (D & b & _ & B), (concrete_built ex true []) as (E & b2 & _ & B2), (concrete_built (ms ++ ex) true []) as (D' & b' & _ & B').
  destruct (H ms ex true [] b b2 b' B B2 B' l (source l None)) as [X _]. destruct (X (source_yields l)) as (o & O & O').
  pose proof (Yields_inj _ _ _ O (run_yields _ _ _ _ B2 _ _ (run_yields _ _ _ _ B _ _ (source_yields l)))) as E1.
  pose proof (Yields_inj _ _ _ O' (run_yields _ _ _ _ B' _ _ (source_yields l))) as E2.
  rewrite E1 in E2. vm_compute in E2. discriminate.
Qed.
