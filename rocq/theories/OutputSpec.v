(** * OutputSpec: reading the output of the command line again (C78). *)

From Verif Require Import Base Utf8 Unicode Token Stream StreamSpec Tokenizer Filters Ascii Synonyms FilterSpec SynSpec ChainSpec LineSpec.

Definition line_end (v : string) : Prop := v = LF \/ v = (CR ++ LF)%string.

(** No line feed, or nothing but a line end. *)
Definition one_line (v : string) : Prop := line_end v \/ ~ In "010"%char (list_ascii_of_string v).

Section WithUnicode.
Variable U : unicode.
Variable scan : oracle.

(** The filters of the command line; a stemmer must not add line feeds, nor erase a token. *)
Inductive line_output : Filter -> Prop :=
| LO_select F : selecting U F -> line_output F
| LO_distinct : line_output Distinct
| LO_fold : line_output (Fold U)
| LO_expand (table : list (string * string)) :
    (forall k v, In (k, v) table -> serr (scan (mkReader v None)) = None /\ ~ In "010"%char (list_ascii_of_string v)) ->
    line_output (Contractions U scan table)
| LO_stem stem : (forall v, stem v true = EmptyString -> v = EmptyString) -> (forall v, one_line v -> one_line (stem v true)) ->
    line_output (Stemmer U stem)
| LO_synonyms ms ic ig D b : dictionary_of (key_tokens U scan) ms D -> built_from U scan ms ic ig b ->
    (forall l c, In (l, c) D -> one_line c) -> line_output (SynFilter U None b).

End WithUnicode.

(** The number of lines, as counted by wc -l. *)
Definition line_feeds (s : string) : nat := count_occ ascii_dec (list_ascii_of_string s) "010"%char.
