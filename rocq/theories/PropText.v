(** * Property theorems C95, C96, C97: handles, hashtags and contractions in running text *)

From Verif Require Import Base Utf8 Unicode UnicodeData Token Stream StreamSpec Tokenizer Words Filters ContractionsTable FilterSpec ExpandSpec TextSpec
  PropSigilLemmas PropTextLemmas PropContractLemmas.

(** The tokens of a text after a filter, as strings; lemmas marked. *)
Definition shown (F : Filter) (s : string) : list (string * bool) :=
  match ToSlice 60 (F (TokenizeString go_unicode words_scan s)) with Ret ((l, None), _) => map (fun t => (tvalue t, tlemma t)) l | _ => [] end.

(** ** C95 *)

(** "@bob's": the handle is at the beginning, and the apostrophe cannot be part of it, but the word is "bob's". *)
Theorem C95_refuted :
  ~ (forall a name b, fresh a -> runes name <> [] -> Forall handle_rune (runes name) -> length (runes name) <= 15 ->
     ends_there handle_rune b -> lemma_between go_unicode words_scan (Handles go_unicode) a ("@" ++ name) b).
Proof. exact C95_refutation. Qed.
Print Assumptions C95_refuted.

(** At such a place it is recognised exactly if the text does not continue the word, as word segmentation sees it; after a word, never. *)
Theorem C95_exactly : forall U, sane U -> forall a name rs r0 b,
  runes name = rs ++ [r0] -> Forall handle_rune (runes name) -> length (runes name) <= 15 ->
  (ready_for U words_scan "@" a -> (lemma_between U words_scan (Handles U) a ("@" ++ name) b <-> ~ continues r0 (runes b))) /\
  (ends_in_word U words_scan "@" a -> ~ lemma_between U words_scan (Handles U) a ("@" ++ name) b).
Proof. exact C95_exact. Qed.
Print Assumptions C95_exactly.

(** Between spaces, in whatever text. *)
Theorem C95_between_spaces_partial : forall a name b, fresh a -> runes name <> [] -> Forall handle_rune (runes name) -> length (runes name) <= 15 ->
  b = EmptyString \/ (exists y, b = (" " ++ y)%string) -> lemma_between go_unicode words_scan (Handles go_unicode) a ("@" ++ name) b.
Proof. exact C95_spaced. Qed.
Print Assumptions C95_between_spaces_partial.

Example C95_example :
  shown (Handles go_unicode) "hi @bob." = [("hi", false); (" ", false); ("@bob", true); (".", false)]%string /\
  shown (Handles go_unicode) "@bob's" = [("@", false); ("bob's", false)]%string /\
  shown (Handles go_unicode) "@bob.Then" = [("@", false); ("bob.Then", false)]%string /\
  shown (Handles go_unicode) "a@bob" = [("a", false); ("@", false); ("bob", false)]%string.
Proof. vm_compute. auto. Qed.

(** ** C96 *)

(** A hashtag of two Chinese characters. *)
Theorem C96_refuted :
  ~ (forall a name b, fresh a -> name <> EmptyString -> legalHashtag go_unicode name = true ->
     ends_there (fun r => uIsLetter go_unicode r = true \/ uIsNumber go_unicode r = true \/ r = 95%N) b ->
     lemma_between go_unicode words_scan (Hashtags go_unicode) a ("#" ++ name) b).
Proof. exact C96_refutation. Qed.
Print Assumptions C96_refuted.

(** In no text is a hashtag recognised that has, after its first character, one that word segmentation lets stand by itself:
    the Chinese characters, hiragana, the letters of Thai, Lao, Khmer and Burmese. *)
Theorem C96_scripts : forall s l t, Yields (Hashtags go_unicode (TokenizeString go_unicode words_scan s)) l -> In t l -> tlemma t = true ->
  forall r rs x, runes (tvalue t) = 35%N :: r :: rs -> In x rs -> wbc x <> WOther.
Proof. exact C96_scripts_lemma. Qed.
Print Assumptions C96_scripts.

Theorem C96_exactly : forall U, sane U -> uIsLetter U RuneError = false -> uIsNumber U RuneError = false -> forall a name rs r0 b,
  runes name = rs ++ [r0] -> legalHashtag U name = true -> Forall ordinary (runes name) ->
  (ready_for U words_scan "#" a -> (lemma_between U words_scan (Hashtags U) a ("#" ++ name) b <-> ~ continues r0 (runes b))) /\
  (ends_in_word U words_scan "#" a -> ~ lemma_between U words_scan (Hashtags U) a ("#" ++ name) b).
Proof. exact C96_exact. Qed.
Print Assumptions C96_exactly.

Theorem C96_between_spaces_partial : forall a name b, fresh a -> name <> EmptyString -> legalHashtag go_unicode name = true -> Forall ordinary (runes name) ->
  b = EmptyString \/ (exists y, b = (" " ++ y)%string) -> lemma_between go_unicode words_scan (Hashtags go_unicode) a ("#" ++ name) b.
Proof. exact C96_spaced. Qed.
Print Assumptions C96_between_spaces_partial.

Example C96_example : uIsLetter go_unicode RuneError = false /\ uIsNumber go_unicode RuneError = false /\
  shown (Hashtags go_unicode) "in #東京" = [("in", false); (" ", false); ("#東", true); ("京", false)]%string /\
  map wbc (runes "東京はไทย") = [WOther; WOther; WOther; WOther; WOther; WOther] /\
  shown (Hashtags go_unicode) "a #Köln, b" = [("a", false); (" ", false); ("#Köln", true); (",", false); (" ", false); ("b", false)]%string /\
  shown (Hashtags go_unicode) "#go_1.2" = [("#", false); ("go_1.2", false)]%string.
Proof. vm_compute. repeat split. Qed.

(** ** C97 *)

(** "can't.He": no letter after the contraction, but the full stop between letters makes it one word. *)
Theorem C97_refuted : ~ (forall a v b, fresh a -> contraction v -> ends_there alphabetic b -> token_between go_unicode words_scan a v b).
Proof. exact C97_refutation. Qed.
Print Assumptions C97_refuted.

Theorem C97_exactly : forall a v b rs r0, contraction v -> runes v = rs ++ [r0] ->
  (token_between go_unicode words_scan a v b <-> ~ leads_into (rev (runes a)) /\ ~ continues r0 (runes b)).
Proof. exact C97_exact. Qed.
Print Assumptions C97_exactly.

(** There the expansion takes its place, and what stands before and after becomes what it would become by itself. *)
Theorem C97_expanded : forall a v e b oa oe ob, expansion go_unicode contraction_mappings v e -> token_between go_unicode words_scan a v b ->
  let Expand := Contractions go_unicode words_scan contraction_mappings in let tokens := TokenizeString go_unicode words_scan in
  Yields (Expand (tokens a)) oa -> Yields (tokens e) oe -> Yields (Expand (tokens b)) ob -> Yields (Expand (tokens (a ++ v ++ b)%string)) (oa ++ oe ++ ob).
Proof. exact C97_output. Qed.
Print Assumptions C97_expanded.

Theorem C97_between_spaces_partial : forall a v b, fresh a -> contraction v -> b = EmptyString \/ (exists y, b = (" " ++ y)%string) -> token_between go_unicode words_scan a v b.
Proof. exact C97_spaced. Qed.
Print Assumptions C97_between_spaces_partial.

Example C97_example : let Expand := Contractions go_unicode words_scan contraction_mappings in
  map fst (shown Expand "I can't.") = ["I"; " "; "can"; " "; "not"; "."]%string /\
  map fst (shown Expand "I can't.He") = ["I"; " "; "can't.He"]%string /\
  map fst (shown Expand "_can't") = ["_can't"]%string /\
  expansion go_unicode contraction_mappings "can't" "can not".
Proof. cbv zeta. split; [vm_compute; reflexivity|]. split; [vm_compute; reflexivity|]. split; [vm_compute; reflexivity|]. apply contraction_lookup. vm_compute. reflexivity. Qed.
