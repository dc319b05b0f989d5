(** * PropOriginLemmas: proofs for C87 *)

From Verif Require Import Base Utf8 Unicode UnicodeData Token Stream StreamSpec ListSpec Queue Tokenizer Words Filters Ascii
  ContractionsTable Trie Synonyms FilterSpec SynSpec ChainSpec OriginSpec StreamProofs TokenProofs FilterProofs AsciiProofs WordsProofs
  TrieProofs SynProofs BuildProofs ChainProofs Sources PropFiltersLemmas PropSigilLemmas PropSynLemmas PropSynLemmas2.

Lemma cf_refl l : comes_from l l.
Proof. induction l; constructor; assumption. Qed.

Lemma cf_drops g l o : comes_from l o -> comes_from (g ++ l) o.
Proof. intros H. induction g; [exact H|]. cbn. now apply CF_dropped. Qed.

Lemma cf_app l1 o1 l2 o2 : comes_from l1 o1 -> comes_from l2 o2 -> comes_from (l1 ++ l2) (o1 ++ o2).
Proof.
  induction 1 as [|t l o H IH|t l o H IH|g t l o N L H IH]; intros H2; cbn [app]; [exact H2| | |].
  - constructor; auto.
  - apply CF_dropped; auto.
  - rewrite <- app_assoc. apply CF_lemma; auto.
Qed.

Lemma cf_cons l t o : comes_from l (t :: o) -> exists g l', l = g ++ l' /\ g <> [] /\ comes_from g [t] /\ comes_from l' o /\ (In t g \/ tlemma t = true).
Proof.
  remember (t :: o) as r eqn:E. intros H. revert t o E. induction H as [|x l o H IH|x l o H IH|g x l o N L H IH]; intros t r E.
  - discriminate.
  - injection E as -> ->. exists [t], l. repeat split; [discriminate| |assumption|left; now left]. apply cf_refl.
  - destruct (IH _ _ E) as (g & l' & -> & N & G & Hr & I). exists (x :: g), l'.
    repeat split; [discriminate|now apply CF_dropped|assumption|]. destruct I; [left; now right|now right].
  - injection E as -> ->. exists g, l. repeat split; try assumption; [|now right]. rewrite <- (app_nil_r g). apply CF_lemma; auto. constructor.
Qed.

Lemma cf_split a : forall b l, comes_from l (a ++ b) -> exists l1 l2, l = l1 ++ l2 /\ comes_from l1 a /\ comes_from l2 b.
Proof.
  induction a as [|t a IH]; intros b l H; [exists [], l; repeat split; [constructor|exact H]|].
  cbn [app] in H. destruct (cf_cons _ _ _ H) as (g & l' & -> & N & G & H' & _). destruct (IH _ _ H') as (l1 & l2 & -> & A & B).
  exists (g ++ l1), l2. rewrite app_assoc. repeat split; [|exact B]. change (t :: a) with ([t] ++ a). now apply cf_app.
Qed.

Lemma cf_trans m o : comes_from m o -> forall l, comes_from l m -> comes_from l o.
Proof.
  induction 1 as [|t m o H IH|t m o H IH|g t m o N L H IH]; intros l Hl.
  - exact Hl.
  - destruct (cf_cons _ _ _ Hl) as (g & l' & -> & _ & G & H' & _). change (t :: o) with ([t] ++ o). apply cf_app; auto.
  - destruct (cf_cons _ _ _ Hl) as (g & l' & -> & _ & _ & H' & _). apply cf_drops. auto.
  - destruct (cf_split _ _ _ Hl) as (l1 & l2 & -> & A & B). apply CF_lemma; auto. intros ->.
    destruct g as [|x g]; [congruence|]. destruct (cf_cons _ _ _ A) as (g' & l' & E & N' & _). destruct g'; [congruence|discriminate].
Qed.

Lemma cf_filter p l : comes_from l (filter p l).
Proof. induction l as [|t l IH]; cbn; [constructor|]. destruct (p t); constructor; exact IH. Qed.

Lemma cf_part l o : part_of o l -> comes_from l o.
Proof. induction 1; constructor; assumption. Qed.

Lemma cf_first seen l : comes_from l (first_occurrences seen l).
Proof. revert seen. induction l as [|t l IH]; intros seen; cbn; [constructor|]. match goal with |- context [if ?b then _ else _] => destruct b end; constructor; apply IH. Qed.

Lemma cf_map l l' : Forall2 (fun t t' => t' = t \/ tlemma t' = true) l l' -> comes_from l l'.
Proof.
  induction 1 as [|t t' l l' [->|L] F IH]; [constructor|constructor; exact IH|].
  change (t :: l) with ([t] ++ l). apply CF_lemma; [discriminate|exact L|exact IH].
Qed.

Lemma cf_joined U sigil legal l o : joined U sigil legal l o -> comes_from l o.
Proof.
  induction 1 as [|t l o J IH|c b m l o Ec Lb Lm J IH]; [constructor|constructor; exact IH|].
  change (c :: b :: l) with ([c; b] ++ l). apply CF_lemma; [discriminate|apply Lm|exact IH].
Qed.

Lemma cf_rewrites U ic ig D n l o : rewrites U ic ig D n l o -> comes_from l o.
Proof.
  induction 1 as [|t l o Hw R IH|t l o Hw NM R IH|t l k c g o Hw L G R IH]; [constructor|constructor; exact IH|constructor; exact IH|].
  rewrite <- (firstn_skipn k (t :: l)). destruct G as [[_ ->]|(m & (_ & Lm & _) & ->)]; [now apply cf_drops|].
  apply CF_lemma; [|exact Lm|exact IH]. destruct L as [[[K _] _] _]. destruct k; [lia|discriminate].
Qed.

Section Filters.
Variable U : unicode.
Variable scan : oracle.
Hypothesis SC : scanner_ok scan.
Hypothesis CS : uIsSpace U 44 = false.

Definition follows (F : Filter) : Prop := forall s l, Yields s l -> exists o, Yields (F s) o /\ comes_from l o.

Lemma mapper_follows fs : (forall f t, In f fs -> exists t', f t = Some t' /\ (t' = t \/ tlemma t' = true)) -> 
  forall l, comes_from l (map (force_map fs) l).
Proof.
  intros H. assert (K : forall t t', maps_to fs t t' -> comes_from [t] [t']).
  { clear - H. unfold maps_to. revert H. induction fs as [|f fs IH]; intros H t t' M; cbn in M.
    - injection M as <-. apply cf_refl.
    - destruct (H f t (or_introl eq_refl)) as (u & E & C). rewrite E in M.
      eapply cf_trans; [apply (IH (fun f' t0 I => H f' t0 (or_intror I)) u t' M)|].
      apply cf_map. constructor; [exact C|constructor]. }
  intros l. assert (F : Forall2 (maps_to fs) l (map (force_map fs) l)).
  { apply force_maps. intros f t I. destruct (H f t I) as (t' & E & _). congruence. }
  revert F. generalize (map (force_map fs) l). induction 1 as [|t t' l' l'' M F IH]; [constructor|].
  change (t :: l') with ([t] ++ l'). change (t' :: l'') with ([t'] ++ l''). apply cf_app; auto.
Qed.

Lemma follows_of F f : transforms F f -> (forall l, comes_from l (f l)) -> follows F.
Proof. intros (T & _) C s l Y. exists (f l). split; [apply T, Y|apply C]. Qed.

Lemma single_follows (f : mapfunc) : (forall t, exists t', f t = Some t' /\ (t' = t \/ tlemma t' = true)) -> follows (Mapper [f]).
Proof.
  intros H. eapply follows_of.
  - apply mapper_transforms. intros g t [<-|[]]. destruct (H t) as (t' & E & _). congruence.
  - apply mapper_follows. intros g t [<-|[]]. apply H.
Qed.

Lemma sigil_follows sigil legal : sigil <> EmptyString -> follows (Sigil U sigil legal).
Proof.
  intros SN s l Y. destruct (C31_lemma' U sigil legal SN s l) as (A & _).
  destruct (A Y) as (o & Yo & J & _). exists o. split; [exact Yo|apply (cf_joined _ _ _ _ _ J)].
Qed.

Lemma marking_follows F : marking_filter U scan F -> follows F.
Proof.
  destruct 1 as [pred| | | |words ic|fs H| |stem H|isNormal normalize H|sigil legal H| | |ms ic ig D b Dd B].
  - eapply follows_of; [apply where_transforms|apply cf_filter].
  - eapply follows_of; [apply where_transforms|apply cf_filter].
  - eapply follows_of; [apply where_transforms|apply cf_filter].
  - eapply follows_of; [apply distinct_transforms|apply cf_first].
  - eapply follows_of; [apply stop_transforms|apply cf_filter].
  - eapply follows_of; [apply mapper_transforms|apply mapper_follows, H]. intros f t I. destruct (H f t I) as (t' & E & _). congruence.
  - apply single_follows. intros t. destruct (folder_total U t) as (t' & M & _). unfold maps_to in M. cbn in M. injection M as M.
    exists t'. split; [exact M|]. revert M. unfold folder. destruct (FoldString (tvalue t)) as [v [|]]; [|intros E; injection E as <-; auto].
    intros E. right. apply (NewToken_value _ _ _ _ E).
  - apply single_follows. intros t. unfold stem_token. destruct (tpunct t || tspace t); [eauto|].
    destruct (seqb (stem (tvalue t) true) (tvalue t)) eqn:E; [eauto|].
    destruct (NewToken_cons U (stem (tvalue t) true) true) as (t' & N).
    + intros C. apply not_true_iff_false in E. apply E, seqb_eq. rewrite C. symmetry. auto.
    + exists t'. split; [exact N|]. right. apply (NewToken_value _ _ _ _ N).
  - apply single_follows. intros t. unfold norm_token. destruct (isNormal (tvalue t)) eqn:E; [eauto|].
    destruct (NewToken_cons U (normalize (tvalue t)) true) as (t' & N); [auto|].
    exists t'. split; [exact N|]. right. apply (NewToken_value _ _ _ _ N).
  - now apply sigil_follows.
  - apply sigil_follows. discriminate.
  - apply sigil_follows. discriminate.
  - intros s l Y. destruct (C38_lemma U scan SC CS _ _ _ _ _ Dd B) as (n & _ & K). destruct (K _ _ Y) as (o & R & Yo).
    exists o. split; [exact Yo|apply (cf_rewrites _ _ _ _ _ _ _ R)].
Qed.

Lemma C87_lemma fs : Forall (marking_filter U scan) fs -> forall s l, Yields s l ->
  exists o, Yields (ApplyFilters fs s) o /\ comes_from l o.
Proof.
  induction 1 as [|F fs H _ IH]; intros s l Y; [exists l; split; [exact Y|apply cf_refl]|].
  destruct (marking_follows F H s l Y) as (o & Yo & C). destruct (IH _ _ Yo) as (o' & Yo' & C').
  exists o'. split; [exact Yo'|]. exact (cf_trans _ _ C' _ C).
Qed.
End Filters.

Lemma part_drops {A} (g : list A) : forall l l', part_of l' l -> part_of l' (g ++ l).
Proof. induction g; intros l l' H; [exact H|]. cbn. apply Part_dropped. auto. Qed.

Lemma C87_consequences l o : comes_from l o ->
  length o <= length l /\ part_of (filter (fun t => negb (tlemma t)) o) l /\ forall t, In t o -> In t l \/ tlemma t = true.
Proof.
  induction 1 as [|t l o H (A & B & C)|t l o H (A & B & C)|g t l o N L H (A & B & C)].
  - repeat split; [lia|constructor|intros t []].
  - cbn. repeat split; [lia|destruct (tlemma t); cbn; constructor; exact B|].
    intros x [<-|I]; [auto|]. destruct (C _ I); auto.
  - cbn. repeat split; [lia|constructor; exact B|]. intros x I. destruct (C _ I); auto.
  - cbn. rewrite L. cbn. repeat split.
    + rewrite app_length. destruct g; [congruence|cbn; lia].
    + now apply part_drops.
    + intros x [<-|I]; [auto|]. destruct (C _ I); [left; apply in_or_app; auto|auto].
Qed.

Lemma C87_refutation : ~ (forall U scan, scanner_ok scan -> uIsSpace U 44 = false -> forall F, library_filter U scan F ->
  forall s l o, Yields s l -> Yields (F s) o -> comes_from l o).
Proof.
  intros H.
  assert (Y : Yields (Contractions go_unicode words_scan contraction_mappings (source [tok "don't"%string] None))
    (flat_map (expand_token go_unicode words_scan contraction_mappings) [tok "don't"%string])).
  { apply Contractions_yields; [exact words_scan_ok|reflexivity|apply source_yields]. }
  assert (E : flat_map (expand_token go_unicode words_scan contraction_mappings) [tok "don't"%string]
    = [tok "do"; tok " "; tok "not"]%string) by (vm_compute; reflexivity).
  rewrite E in Y.
  assert (C : comes_from [tok "don't"%string] [tok "do"; tok " "; tok "not"]%string).
  { eapply (H go_unicode words_scan words_scan_ok); [vm_compute; reflexivity| |apply source_yields|exact Y].
    apply LF_plain, PF_expand. reflexivity. }
  apply C87_consequences in C. destruct C as (C & _). cbn in C. lia.
Qed.
