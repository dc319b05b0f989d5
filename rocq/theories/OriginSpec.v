(** * OriginSpec: where the tokens of an output come from (C87). *)

From Verif Require Import Base Utf8 Unicode Token Stream StreamSpec Tokenizer Filters Ascii Synonyms FilterSpec SynSpec ChainSpec.

(** The tokens [o] come from the tokens [l]: each is one of them, or a lemma that stands for some of them that are next to
    each other; none is used twice, and the order is that of [l]. *)
Inductive comes_from : list token -> list token -> Prop :=
| CF_nil : comes_from [] []
| CF_kept t l o : comes_from l o -> comes_from (t :: l) (t :: o)
| CF_dropped t l o : comes_from l o -> comes_from (t :: l) o
| CF_lemma g t l o : g <> [] -> tlemma t = true -> comes_from l o -> comes_from (g ++ l) (t :: o).

(** [l'] is [l] without some of its elements. *)
Inductive part_of {A} : list A -> list A -> Prop :=
| Part_nil : part_of [] []
| Part_kept x l l' : part_of l' l -> part_of (x :: l') (x :: l)
| Part_dropped x l l' : part_of l' l -> part_of l' (x :: l).

Section WithUnicode.
Variable U : unicode.
Variable scan : oracle.

(** The filters of the library but for Contractions; mapping functions of a user mark what they change. *)
Inductive marking_filter : Filter -> Prop :=
| MF_where pred : marking_filter (Where pred)
| MF_words : marking_filter Words
| MF_lemmas : marking_filter Lemmas
| MF_distinct : marking_filter Distinct
| MF_stopwords words ic : marking_filter (Stopwords U words ic)
| MF_mapper fs : (forall f t, In f fs -> exists t', f t = Some t' /\ (t' = t \/ tlemma t' = true)) -> marking_filter (Mapper fs)
| MF_fold : marking_filter (Fold U)
| MF_stemmer stem : (forall v, stem v true = EmptyString -> v = EmptyString) -> marking_filter (Stemmer U stem)
| MF_norm isNormal normalize : (forall v, isNormal v = false -> normalize v <> EmptyString) ->
    marking_filter (Norm U isNormal normalize)
| MF_sigil sigil legal : sigil <> EmptyString -> marking_filter (Sigil U sigil legal)
| MF_handles : marking_filter (Handles U)
| MF_hashtags : marking_filter (Hashtags U)
| MF_synonyms ms ic ig D b : dictionary_of (key_tokens U scan) ms D -> built_from U scan ms ic ig b ->
    marking_filter (SynFilter U None b).
End WithUnicode.
