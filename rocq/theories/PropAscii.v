(** * Property theorems C20 - C24 *)

From Verif Require Import Base Utf8 Unicode UnicodeData Token Stream StreamSpec Filters Ascii FilterSpec Sources
  PropAsciiLemmas.
Local Open Scope N_scope.

(** C20 is false for strings whose only foldable runes are U+2053 and U+FF5E (fold.go's arm for them
    does not set [folded], so the original is returned). *)
Theorem C20_refuted :
  ~ (forall s, valid_utf8 s = true ->
     exists outs, Forall2 fold_rune (runes s) outs /\ fst (FoldString s) = encode (concat outs)).
Proof. exact C20_refutation. Qed.
Print Assumptions C20_refuted.

(** It holds whenever some rune's arm sets [folded], or nothing is foldable.  Missing: strings with
    only U+2053/U+FF5E to fold. *)
Theorem C20_rune_by_rune_partial :
  forall s, valid_utf8 s = true ->
  (exists r out, In r (runes s) /\ fold_entry r out true) \/ (forall r, In r (runes s) -> ~ foldable r) ->
  exists outs, Forall2 fold_rune (runes s) outs /\ fst (FoldString s) = encode (concat outs).
Proof. exact C20_partial_lemma. Qed.
Print Assumptions C20_rune_by_rune_partial.

(** Every string, also invalid UTF-8: if the arm of some rune sets [folded], all runes are replaced, otherwise none. *)
Theorem C20_every_string : forall s, exists outs,
  Forall2 fold_rune (runes s) outs /\ (forall outs', Forall2 fold_rune (runes s) outs' -> outs' = outs) /\
  ((exists r out, In r (runes s) /\ fold_entry r out true) -> FoldString s = (encode (concat outs), true)) /\
  (~ (exists r out, In r (runes s) /\ fold_entry r out true) -> FoldString s = (s, false)).
Proof. exact C20_exact_lemma. Qed.
Print Assumptions C20_every_string.

Theorem C20_ascii_unchanged : forall s, is_ascii_string s = true -> FoldString s = (s, false).
Proof. exact C20_ascii_lemma. Qed.
Print Assumptions C20_ascii_unchanged.

Theorem C20_folded_is_stable : forall s s', FoldString s = (s', true) ->
  (forall r, In r (runes s') -> ~ foldable r) /\ valid_utf8 s' = true /\ FoldString s' = (s', false).
Proof. exact C20_stable_lemma. Qed.
Print Assumptions C20_folded_is_stable.

(** "é～Æ!" *)
Example C20_example : FoldString (encode [233; 65374; 198; 33]) = ("e~AE!"%string, true).
Proof. vm_compute. reflexivity. Qed.
Example C20_witness : FoldString (encode [65374]) = (encode [65374], false).
Proof. vm_compute. reflexivity. Qed.

Theorem C21_refuted :
  ~ (forall s, snd (FoldString s) = true <-> exists r, In r (runes s) /\ foldable r).
Proof. exact C21_refutation. Qed.
Print Assumptions C21_refuted.

(** True with the two tildes excepted. *)
Theorem C21_folded_flag_partial :
  forall s,
  (snd (FoldString s) = true <-> exists r, In r (runes s) /\ foldable r /\ r <> 8275 /\ r <> 65374) /\
  (snd (FoldString s) = true -> forall r, In r (runes (fst (FoldString s))) -> ~ foldable r).
Proof. exact C21_partial_lemma. Qed.
Print Assumptions C21_folded_flag_partial.

Example C21_example : snd (FoldString (encode [233])) = true /\ snd (FoldString (encode [8275])) = false.
Proof. vm_compute. split; reflexivity. Qed.

(** U+02A8: "tc" in the Java file, "tr" in fold.go. *)
Theorem C22_refuted :
  ~ (forall r out, (exists flag, fold_entry r out flag) <-> lucene_entry r out).
Proof. exact C22_refutation. Qed.
Print Assumptions C22_refuted.

(** All other runes agree. *)
Theorem C22_table_partial :
  forall r out, r <> 680 ->
  ((exists flag, fold_entry r out flag) <-> lucene_entry r out) /\
  (lucene_entry r out -> r <> 8275 -> r <> 65374 -> FoldString (encode_rune r) = (encode out, true)).
Proof. exact C22_partial_lemma. Qed.
Print Assumptions C22_table_partial.

Example C22_witness : FoldString (encode [680]) = ("tr"%string, true).
Proof. vm_compute. reflexivity. Qed.

(** An invalid byte becomes U+FFFD when anything else in the string is folded. *)
Theorem C23_refuted :
  ~ (forall a b, (forall r, In r (runes a) -> ~ foldable r) -> runes (a ++ b) = runes a ++ runes b ->
     fst (FoldString (a ++ b)) = (a ++ fst (FoldString b))%string).
Proof. exact C23_refutation. Qed.
Print Assumptions C23_refuted.

(** Valid UTF-8 without an entry is kept, also beside parts that are folded; a whole string without an entry is
    kept even if invalid. *)
Theorem C23_keeps_valid_partial :
  forall a, (forall r, In r (runes a) -> ~ foldable r) ->
  FoldString a = (a, false) /\
  (valid_utf8 a = true -> forall b, fst (FoldString (a ++ b)) = (a ++ fst (FoldString b))%string /\
    (valid_utf8 b = true -> fst (FoldString (b ++ a)) = (fst (FoldString b) ++ a)%string)).
Proof. exact C23_partial_lemma. Qed.
Print Assumptions C23_keeps_valid_partial.

Example C23_witness :
  FoldString (String (chr 255) (encode [233])) = (encode [65533; 101], true) /\
  FoldString (String (chr 255) "e"%string) = (String (chr 255) "e"%string, false).
Proof. vm_compute. split; reflexivity. Qed.

Theorem C24_Fold_filter :
  forall (U : unicode) (s : TokenStream) (l : list token), exists l',
  Forall2 (fun t t' => match FoldString (tvalue t) with
                       | (f, true) => lemma_of U f t'
                       | (_, false) => t' = t end) l l' /\
  (Yields s l -> Yields (Fold U s) l') /\
  (forall e, Fails s l e -> Fails (Fold U s) l' e) /\
  (forall s', Pulls s l s' -> exists w, Pulls (Fold U s) l' w /\ ts_next w = ts_next (Fold U s')).
Proof. exact C24_lemma. Qed.
Print Assumptions C24_Fold_filter.

Example C24_example :
  match ToSlice 9 (Fold go_unicode (source [tok (encode [233]); tok "x"%string] None)) with
  | Ret ((l, e), _) => (l, e)
  | _ => ([], None)
  end = ([lem "e"%string; tok "x"%string], None).
Proof. vm_compute. reflexivity. Qed.
