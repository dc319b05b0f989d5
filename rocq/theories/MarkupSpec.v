(** * MarkupSpec: HTML documents through filters (C103). *)

From Verif Require Import Base Utf8 Unicode UnicodeData Token Stream StreamSpec Tokenizer Html Words Filters Ascii Synonyms ContractionsTable FilterSpec SynSpec ChainSpec.

(** A tag, comment or doctype. *)
Definition markup (h : htoken) : Prop := h_type h <> HText /\ exists r, h_string h = ("<" ++ r)%string.
Definition markup_token (h : htoken) : token := mkToken (h_string h) true false false.

(** The parser delivers no empty text. *)
Definition no_empty_text (hs : list htoken) : Prop := forall h, In h hs -> h_type h = HText -> h_string h <> EmptyString.

(** The tokens [o] come out when the document goes through the filters. *)
Definition html_processed (fs : list Filter) (hs : list htoken) (o : list token) : Prop :=
  Yields (ApplyFilters fs (TokenizeHTML go_unicode words_scan (mkHP hs None))) o.

(** ascii.Fold replaces a character of [v]. *)
Definition is_folded (v : string) : Prop := exists r out, In r (runes v) /\ fold_entry r out true.

(** The filters of the library that have no reason to touch the markup [m]: ascii.Fold only if no character of it is to be replaced,
    norm only if it is in normal form, the selecting filters only if they select it. *)
Inductive leaves (m : string) : Filter -> Prop :=
| LV_fold : ~ is_folded m -> leaves m (Fold go_unicode)
| LV_expand : leaves m (Contractions go_unicode words_scan contraction_mappings)
| LV_handles : leaves m (Handles go_unicode)
| LV_hashtags : leaves m (Hashtags go_unicode)
| LV_stemmer stem : (forall v, stem v true = EmptyString -> v = EmptyString) -> leaves m (Stemmer go_unicode stem)
| LV_synonyms ms ic ig D b : dictionary_of (key_tokens go_unicode words_scan) ms D -> built_from go_unicode words_scan ms ic ig b ->
    leaves m (SynFilter go_unicode None b)
| LV_where pred : pred (mkToken m true false false) = true -> leaves m (Where pred)
| LV_stopwords (words : list string) (ic : bool) :
    (forall w, In w words -> if ic then strings_ToLower go_unicode w <> strings_ToLower go_unicode m else w <> m) -> leaves m (Stopwords go_unicode words ic)
| LV_norm isNormal normalize : (forall v, isNormal v = false -> normalize v <> EmptyString) -> isNormal m = true ->
    leaves m (Norm go_unicode isNormal normalize).

(** Passages [ps] with [ws] between them. *)
Fixpoint weave {A} (ps : list (list A)) (ws : list A) : list A :=
  match ps, ws with
  | p :: ps', w :: ws' => p ++ w :: weave ps' ws'
  | p :: _, [] => p
  | [], _ => []
  end.
