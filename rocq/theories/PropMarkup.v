(** * Property theorem C103: filters on HTML documents *)

From Verif Require Import Base Utf8 Unicode UnicodeData Token Stream StreamSpec Tokenizer Html Words Filters Ascii Synonyms ContractionsTable
  FilterSpec SynSpec ChainSpec MarkupSpec PropMarkupLemmas.

(** ascii.Fold replaces characters in tags as well. *)
Theorem C103_refuted :
  ~ (forall hs1 h hs2, markup h -> no_empty_text (hs1 ++ h :: hs2) ->
     exists oa ob, html_processed [Fold go_unicode] hs1 oa /\ html_processed [Fold go_unicode] (hs1 ++ h :: hs2) (oa ++ markup_token h :: ob)).
Proof. exact C103_refutation. Qed.
Print Assumptions C103_refuted.

(** Filters in a row, ascii.Fold among them only if it has nothing to replace in the tag: the tag comes through as it is,
    after what comes of a document that ends before it.  Missing: what the refutation shows. *)
Theorem C103_markup_kept_partial :
  forall fs hs1 h hs2, markup h -> Forall (leaves (h_string h)) fs -> no_empty_text (hs1 ++ h :: hs2) ->
  exists oa ob, html_processed fs hs1 oa /\ html_processed fs (hs1 ++ h :: hs2) (oa ++ markup_token h :: ob).
Proof. exact C103_kept. Qed.
Print Assumptions C103_markup_kept_partial.

(** What follows the tag is treated as a document of its own, unless a script or style element has begun (see C16). *)
Theorem C103_cut_at_markup :
  forall fs hs1 h hs2, markup h -> Forall (leaves (h_string h)) fs -> no_empty_text (hs1 ++ h :: hs2) ->
  (forall x, In x (hs1 ++ [h]) -> ~ raw_start x) ->
  exists oa ob, html_processed fs hs1 oa /\ html_processed fs hs2 ob /\ html_processed fs (hs1 ++ h :: hs2) (oa ++ markup_token h :: ob).
Proof. exact C103_cut. Qed.
Print Assumptions C103_cut_at_markup.

(** So a document is processed passage by passage: tags stay, and a text between tags is treated like one that stands alone. *)
Theorem C103_text_by_text :
  forall fs ps ms, length ps = S (length ms) -> Forall markup ms -> Forall (fun h => Forall (leaves (h_string h)) fs /\ ~ raw_start h) ms ->
  Forall no_empty_text ps -> Forall (Forall (fun h => h_type h = HText)) ps ->
  forall os, Forall2 (html_processed fs) ps os -> html_processed fs (weave ps ms) (weave os (map markup_token ms)).
Proof. exact C103_weave. Qed.
Print Assumptions C103_text_by_text.

(** The condition on ascii.Fold is necessary: a tag with a character to be replaced becomes a lemma. *)
Theorem C103_fold_exactly :
  forall hs1 h hs2, markup h -> is_folded (h_string h) -> no_empty_text (hs1 ++ h :: hs2) ->
  exists oa t ob, html_processed [Fold go_unicode] hs1 oa /\ lemma_of go_unicode (fst (FoldString (h_string h))) t /\ tvalue t <> h_string h /\
    html_processed [Fold go_unicode] (hs1 ++ h :: hs2) (oa ++ t :: ob).
Proof. exact C103_fold. Qed.
Print Assumptions C103_fold_exactly.

Example C103_example_leaves :
  Forall (fun h => Forall (leaves (h_string h)) example_filters /\ ~ raw_start h) example_tags /\ Forall markup example_tags /\
  Forall no_empty_text example_passages.
Proof.
  split; [exact example_leaves|]. split.
  - repeat constructor; try discriminate; eexists; reflexivity.
  - repeat constructor; intros h H; cbn in H; try (destruct H as [<-|[]]); try contradiction; discriminate.
Qed.
