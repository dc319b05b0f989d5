(** * SentenceSpec: cutting a text at punctuation (C98). *)

From Verif Require Import Base Utf8 Unicode UnicodeData Token Stream StreamSpec Tokenizer Words Filters Ascii Synonyms ContractionsTable FilterSpec SynSpec ChainSpec TextSpec.

(** The token of a text that is one token. *)
Definition token_of (U : unicode) (v : string) (t : token) : Prop := NewToken U v false = Some t.

Section WithUnicode.
Variable U : unicode.
Variable scan : oracle.

(** The filters of the library (all but Words, Lemmas and Distinct) that keep a given token which is not a word. *)
Inductive keeps (p : token) : Filter -> Prop :=
| KP_where pred : pred p = true -> keeps p (Where pred)
| KP_stopwords (words : list string) (ic : bool) :
    (forall w, In w words -> if ic then strings_ToLower U w <> strings_ToLower U (tvalue p) else w <> tvalue p) ->
    keeps p (Stopwords U words ic)
| KP_mapper fs : (forall f t, In f fs -> f t <> None) ->
    (forall f t t', In f fs -> made U t -> f t = Some t' -> made U t') ->
    (forall f, In f fs -> f p = Some p) -> keeps p (Mapper fs)
| KP_fold : is_ascii_string (tvalue p) = true -> keeps p (Fold U)
| KP_stemmer stem : (forall v, stem v true = EmptyString -> v = EmptyString) -> keeps p (Stemmer U stem)
| KP_norm isNormal normalize : (forall v, isNormal v = false -> normalize v <> EmptyString) ->
    isNormal (tvalue p) = true -> keeps p (Norm U isNormal normalize)
| KP_expand (table : list (string * string)) : (forall k v, In (k, v) table -> serr (scan (mkReader v None)) = None) ->
    (forall v, ~ expansion U table (tvalue p) v) -> keeps p (Contractions U scan table)
| KP_handles : tvalue p <> "@"%string -> legalHandle (tvalue p) = false -> keeps p (Handles U)
| KP_hashtags : tvalue p <> "#"%string -> legalHashtag U (tvalue p) = false -> keeps p (Hashtags U)
| KP_synonyms ms ic ig D b : dictionary_of (key_tokens U scan) ms D -> built_from U scan ms ic ig b -> keeps p (SynFilter U None b).

End WithUnicode.

(** What may stand before a space: the end of a sentence or of a clause. *)
Definition sentence_ends : list string := ["."; ","; ";"; ":"; "!"; "?"; ")"; "]"; """"]%string.

(** The text does not begin with a space or with a combining mark. *)
Definition begins_afresh (b : string) : Prop := match runes b with [] => True | r :: _ => ~ mark r /\ wbc r <> WWSegSpace end.

(** The filters of the library that work on texts: ascii.Fold, contractions.Expand, twitter.Handles, twitter.Hashtags, the stemmers, synonyms filters
    with any mapping (stackoverflow.Tags and nba.CurrentPlayers among them). *)
Inductive shipped : Filter -> Prop :=
| SH_fold : shipped (Fold go_unicode)
| SH_expand : shipped (Contractions go_unicode words_scan contraction_mappings)
| SH_handles : shipped (Handles go_unicode)
| SH_hashtags : shipped (Hashtags go_unicode)
| SH_stemmer stem : (forall v, stem v true = EmptyString -> v = EmptyString) -> shipped (Stemmer go_unicode stem)
| SH_synonyms ms ic ig D b : dictionary_of (key_tokens go_unicode words_scan) ms D -> built_from go_unicode words_scan ms ic ig b -> shipped (SynFilter go_unicode None b).

(** Sentences, each with its end and a space. *)
Definition joined_sentences (l : list (string * string)) : string := sconcat (map (fun ae => (fst ae ++ snd ae ++ " ")%string) l).

(** The outputs for some sentences, each followed by the tokens of its end and of the space. *)
Definition joined_results (l : list (string * string)) (outs : list (list token)) : list token :=
  concat (map (fun x : (string * string) * list token => snd x ++ [mkToken (snd (fst x)) true false false; mkToken " " false true false]) (combine l outs)).
