(** * TextSpec: where a word stands alone in running text (C95 - C97).

    The classes of characters are those of the Unicode standard for word boundaries (annex 29, table 3), as data. *)

From Verif Require Import Base Utf8 Unicode UnicodeData Token Stream StreamSpec Tokenizer Words FilterSpec.
Local Open Scope N_scope.

(** Combining marks and format characters belong to the character before them. *)
Definition mark (r : N) : Prop := In (wbc r) [WExtend; WFormat; WZWJ].
Definition alphabetic (r : N) : Prop := In (wbc r) [WALetter; WHebrew].
Definition digit (r : N) : Prop := wbc r = WNumeric.
(** The underscore and the like. *)
Definition connector (r : N) : Prop := wbc r = WExtendNumLet.
(** Between letters these do not end a word: apostrophe, full stop, colon and the like. *)
Definition between_letters (r : N) : Prop := In (wbc r) [WMidLetter; WMidNumLet; WSingleQuote].
(** Between digits: apostrophe, full stop, comma and the like. *)
Definition between_digits (r : N) : Prop := In (wbc r) [WMidNum; WMidNumLet; WSingleQuote].

(** Letters of the alphabetic scripts but Hebrew, digits, the underscore. *)
Definition ordinary (r : N) : Prop := In (wbc r) [WALetter; WNumeric; WExtendNumLet].

(** The first of the characters that is not a mark, if any, has property [P]. *)
Inductive first_proper (P : N -> Prop) : list N -> Prop :=
| FP_here r l : ~ mark r -> P r -> first_proper P (r :: l)
| FP_mark r l : mark r -> first_proper P l -> first_proper P (r :: l).

(** A text that goes on with the characters [l] continues a word whose last character is the letter, digit or underscore [r0]. *)
Definition continues (r0 : N) (l : list N) : Prop :=
  match l with
  | [] => False
  | r :: l' =>
    mark r \/ alphabetic r \/ digit r \/ connector r \/ (connector r0 /\ wbc r = WKatakana) \/
    (alphabetic r0 /\ between_letters r /\ first_proper alphabetic l') \/
    (digit r0 /\ between_digits r /\ first_proper digit l')
  end.

(** A text that ends with the characters [l] (the last one first) goes on in a word that begins with a letter. *)
Inductive leads_into : list N -> Prop :=
| LI_mark r l : mark r -> leads_into l -> leads_into (r :: l)
| LI_letter r l : alphabetic r \/ digit r \/ connector r -> leads_into (r :: l)
| LI_between r l : between_letters r -> first_proper alphabetic l -> leads_into (r :: l).

(** In the text [a ++ v ++ b], [v] is a token. *)
Definition token_between (U : unicode) (scan : oracle) (a v b : string) : Prop :=
  exists la t lb, Yields (TokenizeString U scan (a ++ v ++ b)) (la ++ t :: lb) /\ text la = a /\ tvalue t = v.

(** The filter [F] makes of the text [a ++ v ++ b] a lemma [v] at its place. *)
Definition lemma_between (U : unicode) (scan : oracle) (F : Filter) (a v b : string) : Prop :=
  exists la t lb, Yields (F (TokenizeString U scan (a ++ v ++ b))) (la ++ t :: lb) /\ text la = a /\ lemma_of U v t.

(** The text is empty, or its last token is neither a word nor the sigil. *)
Definition ready_for (U : unicode) (scan : oracle) (sigil a : string) : Prop :=
  a = EmptyString \/ exists l t, Yields (TokenizeString U scan a) (l ++ [t]) /\ ~ word t /\ tvalue t <> sigil.

(** The last token is a word, and no sigil before it. *)
Definition ends_in_word (U : unicode) (scan : oracle) (sigil a : string) : Prop :=
  exists l t, Yields (TokenizeString U scan a) (l ++ [t]) /\ word t /\ forall l' c, l = l' ++ [c] -> tvalue c <> sigil.

(** The text is empty or ends with a space. *)
Definition fresh (a : string) : Prop := a = EmptyString \/ exists x, a = (x ++ " ")%string.

(** The text is empty or begins with a character that is not one of [P]. *)
Definition ends_there (P : N -> Prop) (b : string) : Prop := match runes b with [] => True | r :: _ => ~ P r end.
