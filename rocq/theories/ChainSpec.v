(** * ChainSpec: the filters of the library. *)

From Verif Require Import Base Utf8 Unicode Token Stream StreamSpec Tokenizer Filters Ascii Synonyms FilterSpec SynSpec.

Section WithUnicode.
Variable U : unicode.
Variable scan : oracle.

(** The tokens of a dictionary key. *)
Definition key_tokens (k : string) (l : list token) : Prop := Yields (TokenizeString U scan k) l.

(** [b] is the state of a synonyms filter for [ms], built without error. *)
Definition built_from (ms : list (string * string)) (ic : bool) (ig : list N) (b : built) : Prop :=
  Returns (fun fuel => build U scan fuel (mkConfig ms ic ig)) (None, b).

(** The filters without a buffer; a user's mapping functions must not return nil, and the
    stemmer and the normal form must not erase a token. *)
Inductive plain_filter : Filter -> Prop :=
| PF_where pred : plain_filter (Where pred)
| PF_words : plain_filter Words
| PF_lemmas : plain_filter Lemmas
| PF_distinct : plain_filter Distinct
| PF_stopwords words ic : plain_filter (Stopwords U words ic)
| PF_mapper fs : (forall f t, In f fs -> f t <> None) -> plain_filter (Mapper fs)
| PF_fold : plain_filter (Fold U)
| PF_stemmer stem : (forall v, stem v true = EmptyString -> v = EmptyString) -> plain_filter (Stemmer U stem)
| PF_norm isNormal normalize : (forall v, isNormal v = false -> normalize v <> EmptyString) ->
    plain_filter (Norm U isNormal normalize)
| PF_expand table : (forall k v, In (k, v) table -> serr (scan (mkReader v None)) = None) ->
    plain_filter (Contractions U scan table).

(** Every filter that the library offers. *)
Inductive library_filter : Filter -> Prop :=
| LF_plain F : plain_filter F -> library_filter F
| LF_sigil sigil legal : sigil <> EmptyString -> library_filter (Sigil U sigil legal)
| LF_handles : library_filter (Handles U)
| LF_hashtags : library_filter (Hashtags U)
| LF_synonyms ms ic ig D b : dictionary_of key_tokens ms D -> built_from ms ic ig b ->
    library_filter (SynFilter U None b).

End WithUnicode.

(** Having read the tokens [l], the filter can deliver all the output due for [l] but for its last [n]
    tokens. (What comes after [l] does not matter: the source may then block or panic.) *)
Definition lookahead (n : nat) (F : Filter) : Prop :=
  forall s l s1, Pulls s l s1 ->
  exists l0 held out w, l = l0 ++ held /\ length held <= n /\ Pulls (F s) out w /\
    forall s0, Yields s0 l0 -> Yields (F s0) out.

(** When the source fails after [l], the output due for [l] is delivered before the error. *)
Definition delivers (F : Filter) : Prop :=
  forall s l e, Fails s l e -> exists o, Fails (F s) o e /\ forall s0, Yields s0 l -> Yields (F s0) o.

(** Tokens that the filter put in place of others are lemmas. *)
Definition replaced_are_lemmas (F : Filter) : Prop :=
  forall s l o, Yields s l -> Yields (F s) o -> forall t, In t o -> In t l \/ tlemma t = true.
