(** * TallySpec: how many tokens a filter puts out (C110). *)

From Verif Require Import Base Utf8 Unicode Token Stream StreamSpec Tokenizer Filters Ascii Synonyms FilterSpec SynSpec ChainSpec.

(** At most [k] tokens for each that is read, from streams that end and from streams that fail. *)
Definition at_most (k : nat) (F : Filter) : Prop :=
  (forall s l o, Yields s l -> Yields (F s) o -> length o <= k * length l) /\
  (forall s l e o, Fails s l e -> Fails (F s) o e -> length o <= k * length l).

(** As many as are read. *)
Definition as_many (F : Filter) : Prop :=
  (forall s l o, Yields s l -> Yields (F s) o -> length o = length l) /\
  (forall s l e o, Fails s l e -> Fails (F s) o e -> length o = length l).

(** The filters that change tokens one by one. *)
Inductive changing_filter (U : unicode) : Filter -> Prop :=
| CH_mapper fs : (forall f t, In f fs -> f t <> None) -> changing_filter U (Mapper fs)
| CH_fold : changing_filter U (Fold U)
| CH_stemmer stem : (forall v, stem v true = EmptyString -> v = EmptyString) -> changing_filter U (Stemmer U stem)
| CH_norm isNormal normalize : (forall v, isNormal v = false -> normalize v <> EmptyString) -> changing_filter U (Norm U isNormal normalize).

Section WithUnicode.
Variable U : unicode.
Variable scan : oracle.

(** The filters of the library but for Contractions. *)
Inductive no_expansion : Filter -> Prop :=
| NE_changing F : changing_filter U F -> no_expansion F
| NE_where pred : no_expansion (Where pred)
| NE_words : no_expansion Words
| NE_lemmas : no_expansion Lemmas
| NE_distinct : no_expansion Distinct
| NE_stopwords words ic : no_expansion (Stopwords U words ic)
| NE_sigil sigil legal : sigil <> EmptyString -> no_expansion (Sigil U sigil legal)
| NE_handles : no_expansion (Handles U)
| NE_hashtags : no_expansion (Hashtags U)
| NE_synonyms ms ic ig D b : dictionary_of (key_tokens U scan) ms D -> built_from U scan ms ic ig b -> no_expansion (SynFilter U None b).
End WithUnicode.
