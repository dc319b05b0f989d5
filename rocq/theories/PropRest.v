(** * Property theorems C108 *)

From Verif Require Import Base Utf8 Unicode UnicodeData Token Stream StreamSpec Tokenizer Words Filters Ascii Synonyms ContractionsTable
  FilterSpec SynSpec ChainSpec Sources WordsProofs FilterProofs PropRestLemmas.

(** False: of "them" the first three letters are taken for a word when reading fails after them, and only "them" is a stop word. *)
Theorem C108_refuted : ~ (forall fs, Forall (library_filter go_unicode words_scan) fs -> forall a b e o o2,
  Fails (ApplyFilters fs (Tokenize go_unicode words_scan (mkReader a (Some e)))) o e ->
  Yields (ApplyFilters fs (TokenizeString go_unicode words_scan (a ++ b))) o2 -> exists y, text o2 = (text o ++ y)%string).
Proof. exact C108_refutation. Qed.
Print Assumptions C108_refuted.

(** It holds for streams of tokens: what a chain of filters puts out before the error is what it puts out first for any source that begins
    with the same tokens, whatever comes then. *)
Theorem C108_streams_partial : forall (U : unicode) (scan : oracle), scanner_ok scan -> uIsSpace U 44 = false ->
  forall fs, Forall (library_filter U scan) fs -> forall s l e o, Fails s l e -> Fails (ApplyFilters fs s) o e ->
  (forall s2 s2', Pulls s2 l s2' -> exists w, Pulls (ApplyFilters fs s2) o w) /\
  (forall s2 x o2, Yields s2 (l ++ x) -> Yields (ApplyFilters fs s2) o2 -> exists y, o2 = o ++ y) /\
  (forall s2 x e2 o2, Fails s2 (l ++ x) e2 -> Fails (ApplyFilters fs s2) o2 e2 -> exists y, o2 = o ++ y).
Proof. exact C108_streams. Qed.
Print Assumptions C108_streams_partial.

(** And for texts, if reading fails between two tokens. *)
Theorem C108_texts_partial : forall U, uIsSpace U 44 = false -> forall fs, Forall (library_filter U words_scan) fs ->
  forall s xs zs, Yields (TokenizeString U words_scan s) (xs ++ zs) ->
  forall e, exists o x, Fails (ApplyFilters fs (Tokenize U words_scan (mkReader (text xs) (Some e)))) o e /\
    Yields (ApplyFilters fs (TokenizeString U words_scan s)) (o ++ x).
Proof. exact C108_texts. Qed.
Print Assumptions C108_texts_partial.

(** "I can't" of "I can't @you" *)
Example C108_example_hypothesis :
  Yields (TokenizeString go_unicode words_scan "I can't @you"%string) (app [tok "I"; tok " "; tok "can't"] [tok " "; tok "@"; tok "you"])%string /\
  text [tok "I"; tok " "; tok "can't"]%string = "I can't"%string.
Proof. split; [exact (FilterProofs.TokenizeString_yields go_unicode words_scan words_scan_ok _ eq_refl)|vm_compute; reflexivity]. Qed.

Example C108_example :
  let F := ApplyFilters [Contractions go_unicode words_scan contraction_mappings; Handles go_unicode] in
  let at_ a := read_all 20 (F (Tokenize go_unicode words_scan (mkReader a (Some "gone"%string)))) in
  at_ "I can't"%string = (["I"; " "; "can"; " "; "not"], Some "gone")%string /\
  at_ "I can't @"%string = (["I"; " "; "can"; " "; "not"; " "], Some "gone")%string /\
  at_ "I can"%string = (["I"; " "; "can"], Some "gone")%string /\
  read_all 20 (F (TokenizeString go_unicode words_scan "I can't @you"%string)) = (["I"; " "; "can"; " "; "not"; " "; "@you"]%string, None).
Proof. vm_compute. auto. Qed.
