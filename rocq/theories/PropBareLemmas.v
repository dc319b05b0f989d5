(** * Proofs about filters made from nothing (C111) *)

From Coq Require Import Lia.
From Verif Require Import Base Utf8 Unicode UnicodeData Token Stream StreamSpec Tokenizer Words Filters Ascii Synonyms
  FilterSpec SynSpec ChainSpec BareSpec Sources StreamProofs TokenProofs FilterProofs WordsProofs ChainProofs PropSynLemmas PropSynLemmas2 PropSynLemmas3.

Lemma transforms_same F f : transforms F f -> (forall l, f l = l) -> changes_nothing F.
Proof. intros (A & B & _) E. split; [intros s l Y; rewrite <- (E l); now apply A|intros s l e Y; rewrite <- (E l); now apply B]. Qed.

Lemma filter_all {A} (p : A -> bool) l : (forall x, p x = true) -> filter p l = l.
Proof. intros H. induction l as [|x l IH]; cbn; [reflexivity|]. now rewrite H, IH. Qed.

Lemma C111_simple U ic : changes_nothing (Stopwords U [] ic) /\ changes_nothing (Mapper []) /\ changes_nothing (Where (fun _ => true)) /\ changes_nothing (ApplyFilters []).
Proof.
  split; [|split; [|split]].
  - eapply transforms_same; [apply stop_transforms|]. intros l. apply filter_all. reflexivity.
  - eapply transforms_same; [apply mapper_transforms; intros f t []|]. intros l. induction l as [|t l IH]; [reflexivity|]. cbn [map]. rewrite IH. reflexivity.
  - eapply transforms_same; [apply where_transforms|]. intros l. now apply filter_all.
  - split; auto.
Qed.

Lemma rewrites_nothing U ic ig D n l o : (forall m c, ~ In (m, c) D) -> rewrites U ic ig D n l o -> o = l.
Proof.
  intros N R. induction R as [|t l o Hw R IH|t l o Hw NM R IH|t l k c g o Hw L G R IH]; [reflexivity|now rewrite IH|now rewrite IH|].
  exfalso. destruct L as [[_ (D1 & m & D2 & E & _)] _]. apply (N m c). rewrite E. apply in_elt.
Qed.

Lemma C111_synonyms_lemma U scan : scanner_ok scan -> uIsSpace U 44 = false -> forall ic ig b, built_from U scan [] ic ig b ->
  (forall s l, Yields s l -> Yields (SynFilter U None b s) l) /\ (forall s l e, Fails s l e -> Fails (SynFilter U None b s) [] e).
Proof.
  intros SC CS ic ig b B. split.
  - intros s l Y. destruct (C38_lemma U scan SC CS [] ic ig [] b (Dict_nil _) B) as (n & _ & K). destruct (K _ _ Y) as (o & R & Yo).
    assert (E : o = l) by (eapply rewrites_nothing; [|exact R]; intros m c []). rewrite E in Yo. exact Yo.
  - exact (C42_synonyms_lemma U scan SC CS [] ic ig [] b (Dict_nil _) B).
Qed.

Lemma C111_refutation : ~ (forall ic ig b, built_from go_unicode words_scan [] ic ig b -> changes_nothing (SynFilter go_unicode None b)).
Proof.
  intros H. destruct (concrete_built [] true []) as (D & b & _ & B). destruct (H _ _ _ B) as [_ F].
  assert (S : Fails (source [tok "a"%string] (Some "gone"%string)) [tok "a"%string] "gone"%string) by apply source_fails.
  destruct (Fails_inj _ _ _ _ _ (F _ _ _ S) (proj2 (C111_synonyms_lemma go_unicode words_scan words_scan_ok go_comma _ _ _ B) _ _ _ S)) as [E _]. discriminate E.
Qed.

Lemma C111_changes : ~ changes_nothing (Stopwords go_unicode ["a"%string] true).
Proof.
  intros [Y _]. specialize (Y _ _ (source_yields [tok "a"%string])).
  pose proof (proj1 (stop_transforms go_unicode ["a"%string] true) _ _ (source_yields [tok "a"%string])) as Y2.
  pose proof (Yields_inj _ _ _ Y Y2) as E. vm_compute in E. discriminate E.
Qed.
