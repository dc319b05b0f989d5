(** * PropExactlyLemmas: exact conditions for C23, C57, C62, C71. *)

From Verif Require Import Base Utf8 Unicode UnicodeData Token Stream StreamSpec ListSpec Tokenizer Filters Ascii FilterSpec ChainSpec OrderSpec Sources
  StreamProofs TokenProofs Utf8Proofs AsciiProofs FilterProofs ChainProofs PropAsciiLemmas PropOrderLemmas
  Generators GenSpec SoGenProofs Web WebSpec PropWebLemmas.

(** ** C71 *)

Lemma first_In v l : forall seen, ~ In v seen -> In v (map tvalue l) -> exists x, In x (first_occurrences seen l) /\ tvalue x = v.
Proof.
  induction l as [|t l IH]; intros seen N I; [destruct I|]. cbn [first_occurrences]. destruct (smem (tvalue t) seen) eqn:M.
  - destruct I as [E|I]; [|now apply IH]. exfalso. apply N. rewrite <- E. now apply smem_In.
  - destruct (string_dec (tvalue t) v) as [E|NE]; [exists t; split; [now left|exact E]|].
    destruct I as [E|I]; [contradiction|]. destruct (IH (tvalue t :: seen)) as (x & J & E); [intros [K|K]; contradiction|exact I|].
    exists x. split; [now right|exact E].
Qed.

Lemma first_out v l : forall seen, In v seen -> forall x, In x (first_occurrences seen l) -> tvalue x <> v.
Proof.
  induction l as [|t l IH]; intros seen N x I; [destruct I|]. cbn [first_occurrences] in I. destruct (smem (tvalue t) seen) eqn:M; [now apply (IH seen)|].
  destruct I as [<-|I]; [|apply (IH (tvalue t :: seen)); [now right|exact I]]. intros <-. apply smem_In in N. congruence.
Qed.

Lemma first_only t r a : forall seen, (forall x, In x a -> tvalue x <> tvalue t) ->
  forall x, In x (first_occurrences seen (a ++ t :: r)) -> tvalue x = tvalue t -> x = t.
Proof.
  induction a as [|y a IH]; intros seen N x I E.
  - cbn [app first_occurrences] in I. destruct (smem (tvalue t) seen) eqn:M.
    + exfalso. apply smem_In in M. now apply (first_out _ _ _ M _ I).
    + destruct I as [<-|I]; [reflexivity|]. exfalso. refine (first_out _ _ _ _ _ I E). now left.
  - cbn [app first_occurrences] in I. destruct (smem (tvalue y) seen).
    + apply (IH seen); auto. intros z Iz. apply N. now right.
    + destruct I as [<-|I]; [exfalso; apply (N y); [now left|exact E]|]. apply (IH (tvalue y :: seen)); auto. intros z Iz. apply N. now right.
Qed.

Lemma first_decides_order p l : first_decides p l -> filter p (first_occurrences [] l) = first_occurrences [] (filter p l).
Proof.
  intros H.
  assert (G : forall l' seen seen',
    (forall a t b u c, l' = a ++ t :: b ++ u :: c -> (forall x, In x a -> tvalue x <> tvalue t) -> ~ In (tvalue t) seen -> tvalue u = tvalue t -> p u = true -> p t = true) ->
    (forall t, In t l' -> p t = true -> smem (tvalue t) seen = smem (tvalue t) seen') ->
    filter p (first_occurrences seen l') = first_occurrences seen' (filter p l')).
  { induction l' as [|t l' IH]; intros seen seen' K S; [reflexivity|]. cbn [first_occurrences filter].
    assert (K1 : smem (tvalue t) seen = true -> forall a t b u c, l' = a ++ t :: b ++ u :: c -> (forall x, In x a -> tvalue x <> tvalue t) ->
      ~ In (tvalue t) seen -> tvalue u = tvalue t -> p u = true -> p t = true).
    { intros M a t' b u c -> N Ns E P. apply (K (t :: a) t' b u c eq_refl); auto. intros x [<-|Ix]; [|auto]. intros X. apply Ns. rewrite <- X. now apply smem_In. }
    assert (K2 : forall a t' b u c, l' = a ++ t' :: b ++ u :: c -> (forall x, In x a -> tvalue x <> tvalue t') ->
      ~ In (tvalue t') (tvalue t :: seen) -> tvalue u = tvalue t' -> p u = true -> p t' = true).
    { intros a t' b u c -> N Ns E P. apply (K (t :: a) t' b u c eq_refl); auto.
      - intros x [<-|Ix]; [|auto]. intros X. apply Ns. now left.
      - intros X. apply Ns. now right. }
    assert (S1 : forall u, In u l' -> p u = true -> smem (tvalue u) seen = smem (tvalue u) seen') by (intros; apply S; [now right|assumption]).
    destruct (p t) eqn:P.
    - cbn [first_occurrences]. rewrite <- (S t) by (try (now left); exact P). destruct (smem (tvalue t) seen) eqn:M.
      + apply IH; [exact (K1 eq_refl)|exact S1].
      + cbn [filter]. rewrite P. f_equal. apply IH; [exact K2|]. intros u Iu Pu. unfold smem. cbn [existsb]. f_equal. now apply S1.
    - destruct (smem (tvalue t) seen) eqn:M; cbn [filter]; rewrite ?P; [apply IH; [exact (K1 eq_refl)|exact S1]|].
      apply IH; [exact K2|]. intros u Iu Pu. rewrite <- (S1 u Iu Pu). unfold smem. cbn [existsb].
      destruct (seqb (tvalue u) (tvalue t)) eqn:Q; [|reflexivity]. apply seqb_eq in Q. apply in_split in Iu as (b & c & ->).
      assert (X : p t = true); [|congruence].
      apply (K [] t b u c eq_refl); auto. intros I. apply smem_In in I. congruence. }
  apply G; [|reflexivity]. intros a t b u c E N _. exact (H a t b u c E N).
Qed.

Lemma order_first_decides p l : filter p (first_occurrences [] l) = first_occurrences [] (filter p l) -> first_decides p l.
Proof.
  intros H a t b u c E N V P. destruct (first_In (tvalue u) (filter p l) []) as (x & I & X); [intros []| |].
  - apply in_map. apply filter_In. split; [|exact P]. rewrite E. apply in_or_app. right. right. apply in_or_app. right. now left.
  - rewrite <- H in I. apply filter_In in I as [I Px]. rewrite E in I. rewrite V in X. now rewrite <- (first_only _ _ _ _ N x I X).
Qed.

Lemma C71_exact p l : either_order (Where p) Distinct l <-> first_decides p l.
Proof.
  split.
  - intros H. apply order_first_decides. destruct (H (source l None)) as [X _]. destruct (X (source_yields l)) as (l' & Y1 & Y2).
    pose proof (proj1 (where_transforms p) _ _ (proj1 distinct_transforms _ _ (source_yields l))) as Z1.
    pose proof (proj1 distinct_transforms _ _ (proj1 (where_transforms p) _ _ (source_yields l))) as Z2.
    rewrite <- (Yields_inj _ _ _ Y1 Z1). exact (Yields_inj _ _ _ Y2 Z2).
  - intros H. eapply transforms_commute; [apply where_transforms|apply distinct_transforms|]. now apply first_decides_order.
Qed.

Lemma C71_Lemmas l : either_order Lemmas Distinct l <-> first_decides tlemma l.
Proof. exact (C71_exact tlemma l). Qed.

(** ** C23 *)

Lemma sapp_inj_l a : forall b c, (a ++ c = b ++ c)%string -> a = b.
Proof.
  assert (Len : forall x y, String.length (x ++ y) = String.length x + String.length y) by (induction x as [|ch x IH]; intros y; cbn; auto).
  induction a as [|x a IH]; intros [|y b] c E; cbn in E; [reflexivity| | |].
  - apply (f_equal String.length) in E. cbn in E. rewrite Len in E. lia.
  - apply (f_equal String.length) in E. cbn in E. rewrite Len in E. lia.
  - injection E as -> E. f_equal. exact (IH b c E).
Qed.

Lemma C23_exact a b : (forall r, In r (runes a) -> ~ foldable r) -> runes (a ++ b) = runes a ++ runes b ->
  (fst (FoldString (a ++ b)) = (a ++ fst (FoldString b))%string <-> valid_utf8 a = true \/ snd (FoldString b) = false).
Proof.
  intros H R. pose proof (unfoldable_flagged _ H) as F. pose proof (unfoldable_subst _ H) as S.
  rewrite !FoldString_spec, R, existsb_app, F. cbn [orb]. destruct (existsb flagged (runes b)); cbn [fst snd]; [|tauto].
  rewrite flat_map_app, S, encode_app. split.
  - intros E. left. apply encode_runes_iff. exact (sapp_inj_l _ _ _ E).
  - intros [V|V]; [|discriminate]. now rewrite (encode_runes a V).
Qed.

(** ** C57 *)

Lemma no_nul_longer s : String.length s <= String.length (no_nul s).
Proof. induction s as [|c s IH]; [reflexivity|]. cbn [no_nul]. destruct (Ascii.eqb c "000"); cbn [String.length]; lia. Qed.

Lemma no_nul_same s : no_nul s = s <-> without "000" s.
Proof.
  induction s as [|c s IH]; [split; [exact (fun _ => I)|reflexivity]|]. cbn [no_nul without]. destruct (Ascii.eqb c "000") eqn:E.
  - apply Ascii.eqb_eq in E. split; [|tauto]. intros H. pose proof (no_nul_longer s). apply (f_equal String.length) in H. cbn [String.length] in H. lia.
  - apply Ascii.eqb_neq in E. rewrite <- IH. split; [intros H; injection H as H; auto|intros [_ H]; now rewrite H].
Qed.

Lemma C57_exact l s : page l s -> (shown Text s = text l <-> without "000" (text l)).
Proof. intros P. destruct (C57_lemma l s P) as (_ & -> & _). apply no_nul_same. Qed.

(** ** C62 *)

Lemma with_spaces_drop x : with_spaces x = "drop down"%string <-> x = "drop-down"%string \/ x = "drop down"%string.
Proof.
  split; [|intros [->| ->]; reflexivity]. unfold with_spaces. intros H.
  assert (G : forall y x, string_of_list_ascii (map (fun c => if ascii_dec c "-" then " "%char else c) (list_ascii_of_string x)) = y ->
    Forall2 (fun a b => b = (if ascii_dec a "-" then " "%char else a)) (list_ascii_of_string x) (list_ascii_of_string y)).
  { clear. intros y x <-. rewrite list_ascii_of_string_of_list_ascii. induction (list_ascii_of_string x); constructor; auto. }
  apply G in H. clear G. cbn [list_ascii_of_string] in H.
  rewrite <- (string_of_list_ascii_of_string x). destruct (list_ascii_of_string x) as [|a1 [|a2 [|a3 [|a4 [|a5 [|a6 [|a7 [|a8 [|a9 [|a10 l]]]]]]]]]];
    repeat match goal with H : Forall2 _ _ _ |- _ => inversion H; clear H; subst end.
  repeat match goal with H : _ = (if ascii_dec ?a "-" then _ else _) |- _ => destruct (ascii_dec a "-"); [try discriminate H|]; subst end;
    cbn; auto.
Qed.

Lemma C62_exact api abort ps m : fetched api "stackoverflow" 1 20 ps -> no_commas ps -> consistent ps -> so_mappings_of api abort = inl m ->
  forall c, listed m "drop down" c <-> exists t, live ps t /\ iname t = c /\ (c = "drop-down"%string \/ c = "drop down"%string \/ In "drop down"%string (isynonyms t)).
Proof.
  intros F NC CO E c. destruct (C61_lemma api abort) as [_ H]. destruct (H ps F) as (m' & E' & K). rewrite E in E'. injection E' as <-.
  rewrite (K NC CO). split.
  - intros (t & L & N & [(W & _)|(s & I & X & W)]); exists t; (split; [exact L|]); (split; [exact N|]).
    + symmetry in W. apply with_spaces_drop in W. rewrite N in W. tauto.
    + symmetry in W. apply with_spaces_drop in W as [->| ->]; [|auto]. exfalso. apply X. now left.
  - intros (t & L & N & [D|[D|I]]); exists t; (split; [exact L|]); (split; [exact N|]).
    + left. rewrite N, D. split; [reflexivity|]. cbn. intuition discriminate.
    + left. rewrite N, D. split; [reflexivity|]. cbn. intuition discriminate.
    + right. exists "drop down"%string. split; [exact I|]. split; [cbn; intuition discriminate|reflexivity].
Qed.
