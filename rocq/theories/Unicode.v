(** * Unicode: the standard-library character tables, as a parameter.

    [unicode.IsPunct], [unicode.IsSpace], [unicode.IsLetter], [unicode.IsNumber],
    [unicode.ToLower] (used by /repo/punct.go:6, /repo/token.go:65,
    /repo/filters/twitter/filter.go:46-53, /repo/filters/synonyms/trie/trie.go:71,103) are
    data of the Go standard library, not of /repo.  Theorems quantify over every
    such table ([unicode]); where a fact about particular characters is needed it is an
    explicit hypothesis of the theorem.  A concrete table is in UnicodeData.v. *)

From Verif Require Import Base Utf8.
Local Open Scope N_scope.

Record unicode := mkUnicode {
  uIsPunct : N -> bool;
  uIsSpace : N -> bool;
  uIsLetter : N -> bool;
  uIsNumber : N -> bool;
  uToLower : N -> N
}.

(** ASCII lower-casing of a byte. *)
Definition lower_ascii (b : N) : N := if in_range 65 90 b then b + 32 else b.

Fixpoint map_ascii_lower (s : string) : string :=
  match s with
  | EmptyString => EmptyString
  | String c s' => String (chr (lower_ascii (byte_of c))) (map_ascii_lower s')
  end.

(** [strings.ToLower] (Go standard library), used at
    /repo/filters/stopwords/filter.go:16,61 and /repo/filters/contractions/filter.go:66:
    an ASCII fast path, otherwise [strings.Map(unicode.ToLower, s)]. *)
Definition strings_ToLower (U : unicode) (s : string) : string :=
  if is_ascii_string s then map_ascii_lower s
  else encode (map (uToLower U) (runes s)).
