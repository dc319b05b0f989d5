(** * LineSpec: cutting a text into lines. *)

From Verif Require Import Base Utf8 Unicode Token Stream StreamSpec Tokenizer Filters Ascii Synonyms FilterSpec SynSpec ChainSpec.

Definition LF : string := String (ascii_of_nat 10) EmptyString.
Definition CR : string := String (ascii_of_nat 13) EmptyString.

(** [e] ends a line after the text [a]; a line feed after a carriage return would be the second half of CR LF. *)
Definition ends_line (a e : string) : Prop :=
  e = (CR ++ LF)%string \/ (e = LF /\ forall a', a <> (a' ++ CR)%string).

(** A word segmentation breaks at line ends (UAX #29, rules WB3, WB3a and WB3b). *)
Definition breaks_lines (seg : string -> list string) : Prop :=
  forall a e b, ends_line a e -> seg (a ++ e ++ b)%string = seg a ++ e :: seg b.

(** The token of a line end. *)
Definition line_token (e : string) : token := mkToken e true true false.

Section WithUnicode.
Variable U : unicode.
Variable scan : oracle.

(** The filters of the library that keep line ends and do not look beyond them: all but Words, Lemmas and Distinct
    (and but those of a user that remove or change a line end). *)
Inductive line_filter : Filter -> Prop :=
| LN_where pred : (forall a e, ends_line a e -> pred (line_token e) = true) -> line_filter (Where pred)
| LN_stopwords (words : list string) (ic : bool) :
    (forall a e w, ends_line a e -> In w words -> if ic then strings_ToLower U w <> strings_ToLower U e else w <> e) ->
    line_filter (Stopwords U words ic)
| LN_mapper fs : (forall f t, In f fs -> f t <> None) ->
    (forall f t t', In f fs -> made U t -> f t = Some t' -> made U t') ->
    (forall f a e, In f fs -> ends_line a e -> f (line_token e) = Some (line_token e)) -> line_filter (Mapper fs)
| LN_fold : line_filter (Fold U)
| LN_stemmer stem : (forall v, stem v true = EmptyString -> v = EmptyString) -> line_filter (Stemmer U stem)
| LN_norm isNormal normalize : (forall v, isNormal v = false -> normalize v <> EmptyString) ->
    (forall a e, ends_line a e -> isNormal e = true) -> line_filter (Norm U isNormal normalize)
| LN_expand (table : list (string * string)) : (forall k v, In (k, v) table -> serr (scan (mkReader v None)) = None) ->
    (forall a e v, ends_line a e -> ~ expansion U table e v) -> line_filter (Contractions U scan table)
| LN_handles : line_filter (Handles U)
| LN_hashtags : line_filter (Hashtags U)
| LN_synonyms ms ic ig D b : dictionary_of (key_tokens U scan) ms D -> built_from U scan ms ic ig b ->
    line_filter (SynFilter U None b).

End WithUnicode.

(** What the filters [fs] make of the text [a]. *)
Definition processed (U : unicode) (scan : oracle) (fs : list Filter) (a : string) (o : list token) : Prop :=
  Yields (ApplyFilters fs (TokenizeString U scan a)) o.

(** The filters that only select tokens, each for itself. *)
Inductive selecting (U : unicode) : Filter -> Prop :=
| Sel_where pred : selecting U (Where pred)
| Sel_words : selecting U Words
| Sel_lemmas : selecting U Lemmas
| Sel_stopwords words ic : selecting U (Stopwords U words ic).

(** The text of some lines, each with its line end. *)
Definition joined_lines (lines : list (string * string)) : string :=
  sconcat (map (fun ae => (fst ae ++ snd ae)%string) lines).

(** The outputs for some lines, each followed by what is kept of its line end. *)
Definition joined_outputs (kept : string -> list token) (lines : list (string * string)) (outs : list (list token)) : list token :=
  concat (map (fun x : (string * string) * list token => snd x ++ kept (snd (fst x))) (combine lines outs)).
