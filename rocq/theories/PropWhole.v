(** * Property theorems C101: folding a text and folding its tokens *)

From Verif Require Import Base Utf8 Unicode UnicodeData Token Stream StreamSpec Tokenizer Words Ascii FilterSpec WordsProofs Sources PropWholeLemmas.
Local Open Scope N_scope.

(** C101. The tokens that ascii.Fold puts out spell what FoldString makes of the whole text. False of
    "é ～": FoldString replaces the full-width tilde, the filter does not. *)
Theorem C101_refuted : forall U, ~ (forall s o, Yields (Fold U (TokenizeString U words_scan s)) o -> text o = fst (FoldString s)).
Proof. exact C101_refutation. Qed.
Print Assumptions C101_refuted.

(** True of valid UTF-8 without the two tildes. *)
Theorem C101_valid_partial : forall U s o, valid_utf8 s = true -> ~ In 8275 (runes s) -> ~ In 65374 (runes s) ->
  Yields (Fold U (TokenizeString U words_scan s)) o -> text o = fst (FoldString s).
Proof. exact C101_valid. Qed.
Print Assumptions C101_valid_partial.

(** Of any bytes exactly if there is nothing to fold, or each token has something to fold or is valid and without a tilde. *)
Theorem C101_exactly : forall U s l o, Yields (TokenizeString U words_scan s) l -> Yields (Fold U (TokenizeString U words_scan s)) o ->
  (text o = fst (FoldString s) <->
   (~ exists r out, In r (runes s) /\ fold_entry r out true) \/
   forall t, In t l -> (exists r out, In r (runes (tvalue t)) /\ fold_entry r out true) \/
     (valid_utf8 (tvalue t) = true /\ ~ In 8275 (runes (tvalue t)) /\ ~ In 65374 (runes (tvalue t)))).
Proof. exact C101_lemma. Qed.
Print Assumptions C101_exactly.

(** FoldString reports a change exactly if some token is put out as a lemma. *)
Theorem C101_folded : forall U s o, Yields (Fold U (TokenizeString U words_scan s)) o ->
  ((exists t, In t o /\ tlemma t = true) <-> snd (FoldString s) = true).
Proof. exact C101_lemmas. Qed.
Print Assumptions C101_folded.

(** "Crème Brûlée" is such a text. *)
Example C101_example :
  let s := encode [67; 114; 232; 109; 101; 32; 66; 114; 251; 108; 233; 101] in
  valid_utf8 s = true /\ ~ In 8275 (runes s) /\ ~ In 65374 (runes s) /\ fst (FoldString s) = "Creme Brulee"%string /\
  match ToSlice 9 (Fold go_unicode (TokenizeString go_unicode words_scan s)) with
  | Ret ((l, e), _) => (l, e)
  | _ => ([], None)
  end = ([lem "Creme"; mkToken " " false true false; lem "Brulee"]%string, None).
Proof. vm_compute. repeat split; intuition discriminate. Qed.
