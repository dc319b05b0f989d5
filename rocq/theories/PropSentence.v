(** * Property theorem C98 *)

From Verif Require Import Base Utf8 Unicode UnicodeData Token Stream StreamSpec Tokenizer Words Filters Ascii Synonyms ContractionsTable
  FilterSpec SynSpec ChainSpec TextSpec SentenceSpec LineSpec Sources PropSigilLemmas PropSynLemmas2 PropSentenceLemmas.

(** Any punctuation that is a token of the text, any filters that keep it. *)
Theorem C98_cut_at_punctuation : forall U, sane U -> uIsSpace U 44 = false ->
  forall p t fs, token_of U p t -> tpunct t = true -> Forall (keeps U words_scan t) fs ->
  forall a b oa ob, token_between U words_scan a p b -> processed U words_scan fs a oa -> processed U words_scan fs b ob ->
  processed U words_scan fs (a ++ p ++ b) (oa ++ t :: ob).
Proof. exact C98_clauses. Qed.
Print Assumptions C98_cut_at_punctuation.

(** The filters of the library: sentence by sentence. *)
Theorem C98_sentence_by_sentence : forall fs, Forall shipped fs -> forall sentences last,
  (forall a p, In (a, p) sentences -> In p sentence_ends /\ begins_afresh a) -> begins_afresh last ->
  exists outs o, Forall2 (fun ap => processed go_unicode words_scan fs (fst ap)) sentences outs /\ processed go_unicode words_scan fs last o /\
    processed go_unicode words_scan fs (joined_sentences sentences ++ last) (joined_results sentences outs ++ o).
Proof. exact C98_list. Qed.
Print Assumptions C98_sentence_by_sentence.

(** The hypotheses can be met, and a synonym over the end of a sentence is not found. *)
Example C98_example :
  (exists b, Forall shipped [Contractions go_unicode words_scan contraction_mappings; Fold go_unicode; SynFilter go_unicode None b; Handles go_unicode; Hashtags go_unicode]) /\
  begins_afresh "on rails" /\ ~ begins_afresh " x" /\
  match build go_unicode words_scan 40 (mkConfig [("ruby on rails", "ruby-on-rails")]%string true [32%N; 46%N]) with
  | Ret (None, b) =>
    let shown s := match ToSlice 60 (ApplyFilters [Contractions go_unicode words_scan contraction_mappings; SynFilter go_unicode None b; Handles go_unicode]
      (TokenizeString go_unicode words_scan s)) with Ret ((l, None), _) => map tvalue l | _ => [] end in
    shown "I can't ruby. on rails! @x: ruby on rails"%string =
      ["I"; " "; "can"; " "; "not"; " "; "ruby"; "."; " "; "on"; " "; "rails"; "!"; " "; "@x"; ":"; " "; "ruby-on-rails"]%string /\
    shown "I can't ruby"%string = ["I"; " "; "can"; " "; "not"; " "; "ruby"]%string /\ shown "@x"%string = ["@x"]%string
  | _ => False end.
Proof.
  split; [|split; [|split]].
  - destruct (concrete_built [("ruby on rails", "ruby-on-rails")]%string true [32%N]) as (D & b & Dd & B). exists b.
    constructor; [apply SH_expand|]. constructor; [apply SH_fold|]. constructor; [eapply SH_synonyms; eassumption|]. constructor; [apply SH_handles|]. constructor; [apply SH_hashtags|constructor].
  - vm_compute. split; [intuition discriminate|discriminate].
  - vm_compute. intros [_ H]. now apply H.
  - vm_compute. repeat split.
Qed.
