(** * Property theorems C87: where the tokens of the output come from *)

From Verif Require Import Base Utf8 Unicode UnicodeData Token Stream StreamSpec Tokenizer Words Filters Ascii ContractionsTable
  Synonyms FilterSpec SynSpec ChainSpec OriginSpec WordsProofs Sources PropOriginLemmas.
Local Open Scope string_scope.
Local Open Scope list_scope.

(** C87 is false: expanding contractions adds tokens that are not lemmas. *)
Theorem C87_refuted :
  ~ (forall (U : unicode) (scan : oracle), scanner_ok scan -> uIsSpace U 44 = false -> forall F, library_filter U scan F ->
     forall s l o, Yields s l -> Yields (F s) o -> comes_from l o).
Proof. exact C87_refutation. Qed.
Print Assumptions C87_refuted.

(** It holds for chains of all the other filters. *)
Theorem C87_others_partial :
  forall (U : unicode) (scan : oracle), scanner_ok scan -> uIsSpace U 44 = false ->
  forall fs, Forall (marking_filter U scan) fs -> forall s l, Yields s l ->
  exists o, Yields (ApplyFilters fs s) o /\ comes_from l o.
Proof. exact C87_lemma. Qed.
Print Assumptions C87_others_partial.

(** What this means: not more tokens; those that are not lemmas are tokens of the source, in its order. *)
Theorem C87_meaning :
  forall l o, comes_from l o ->
  length o <= length l /\ part_of (filter (fun t => negb (tlemma t)) o) l /\ (forall t, In t o -> In t l \/ tlemma t = true).
Proof. exact C87_consequences. Qed.
Print Assumptions C87_meaning.

(** A chain, its output, and where that comes from; tokens in another order would not do. *)
Example C87_example :
  let fs := [Stopwords go_unicode ["the"] true; Handles go_unicode; Fold go_unicode; Words] in
  let l := [tok "the"; tok " "; tok "@"; tok "bob"; tok " "; tok "cafés"; tok "!"; tok "ok"] in
  let o := [mkToken "@bob" false false true; mkToken "cafes" false false true; tok "ok"] in
  Forall (marking_filter go_unicode words_scan) fs /\
  match ToSlice 60 (ApplyFilters fs (source l None)) with Ret (x, _) => x = (o, None) | _ => False end /\
  comes_from l o /\ ~ comes_from [tok "a"; tok "b"] [tok "b"; tok "a"].
Proof.
  cbv zeta. split; [|split; [|split]].
  - apply Forall_cons; [apply MF_stopwords|]. apply Forall_cons; [apply MF_handles|]. apply Forall_cons; [apply MF_fold|].
    apply Forall_cons; [apply MF_words|apply Forall_nil].
  - vm_compute. reflexivity.
  - apply CF_dropped, CF_dropped. apply (CF_lemma [tok "@"; tok "bob"] _ [tok " "; tok "cafés"; tok "!"; tok "ok"]); [discriminate|reflexivity|].
    apply CF_dropped. apply (CF_lemma [tok "cafés"] _ [tok "!"; tok "ok"]); [discriminate|reflexivity|].
    apply CF_dropped, cf_refl.
  - intros C. apply C87_consequences in C. destruct C as (_ & C & _). vm_compute in C.
    inversion C; subst. match goal with H : part_of _ [_] |- _ => inversion H; subst end.
    + match goal with H : part_of _ [] |- _ => inversion H end.
    + match goal with H : part_of _ [] |- _ => inversion H end.
Qed.
