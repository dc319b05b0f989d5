(** * PlayersSpec: vocabulary of C88.

    /repo/filters/nba/filter.go:9-10: "CurrentPlayers is a token filter for identifying current NBA players [...]
    It is insensitive to spaces, dashes, apostrophes, periods and diacritics in players' names." *)

From Verif Require Import Base Utf8 Unicode UnicodeData Token Stream StreamSpec Tokenizer Words Ascii Synonyms FilterSpec SynSpec
  Dictionaries NbaTable.

Definition player (c : string) : Prop := exists k, In (k, c) (cf_mappings CurrentPlayers_config).

(** Without diacritics; ascii.FoldString also writes all kinds of dashes and apostrophes as - and '. *)
Definition without_diacritics (v : string) : string := fst (FoldString v).

(** Case, spaces, dashes, apostrophes and periods do not count. *)
Definition name_letters (v : string) : list N := letters go_unicode true [32; 45; 39; 46; 8211]%N v.

(** The texts are the same but for what does not count. *)
Definition alike (v c : string) : Prop := name_letters (without_diacritics v) = name_letters (without_diacritics c).

(** The filter [b] makes of the tokens of [s] the player [c]. *)
Definition recognised (b : built) (s : TokenStream) (c : string) : Prop :=
  exists m, lemma_of go_unicode c m /\ Yields (SynFilter go_unicode None b s) [m].
