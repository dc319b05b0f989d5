(** * FilterSpec: vocabulary of the statements about tokenizers and filters.

    Written from the documentation, without using any helper of the model. *)

From Verif Require Import Base Utf8 Unicode Token Stream StreamSpec Tokenizer Html AsciiTable LuceneTable.
Local Open Scope N_scope.

(** ** HTML *)

Definition raw_start (h : htoken) : Prop := h_type h = StartTag /\ (h_atom h = Script \/ h_atom h = Style).
Definition raw_end (h : htoken) : Prop := h_type h = EndTag /\ (h_atom h = Script \/ h_atom h = Style).

(** After the HTML tokens [pre] a script or style element is open: some start tag of one is
    not followed by an end tag of one. *)
Definition inside_raw (pre : list htoken) : Prop :=
  exists a h b, pre = a ++ h :: b /\ raw_start h /\ forall x, In x b -> ~ raw_end x.

(** The tokens [g] are acceptable for the HTML token [h]: they spell it; a tag, comment or doctype is one
    punctuation token; a text node is one token or is tokenized as TokenizeString does. *)
Definition html_piece (U : unicode) (scan : oracle) (h : htoken) (g : list token) : Prop :=
  text g = h_string h /\
  (h_type h <> HText -> g = [mkToken (h_string h) true false false]) /\
  (h_type h = HText -> g = [mkToken (h_string h) false false false] \/ Yields (TokenizeString U scan (h_string h)) g).

(** ** ASCII folding *)

(** The switch in fold.go maps rune [r] to the runes [out]; [flag]: that arm sets [folded]. *)
Definition fold_entry (r : N) (out : list N) (flag : bool) : Prop :=
  exists cs, In (cs, out, flag) fold_arms /\ In r cs.
Definition foldable (r : N) : Prop := exists out flag, fold_entry r out flag.

(** The Java original maps [r] to [out]. *)
Definition lucene_entry (r : N) (out : list N) : Prop :=
  exists cs, In (cs, out) lucene_arms /\ In r cs.

(** [out] is [r]'s replacement, or [r] itself if there is none. *)
Definition fold_rune (r : N) (out : list N) : Prop :=
  (exists flag, fold_entry r out flag) \/ (~ foldable r /\ out = [r]).

(** ** Tokens *)

(** [t] is as NewToken makes it. *)
Definition made (U : unicode) (t : token) : Prop := NewToken U (tvalue t) (tlemma t) = Some t.

(** A word: neither punctuation nor space. *)
Definition word (t : token) : Prop := tpunct t = false /\ tspace t = false.

(** [t'] is a lemma with text [v], classified as NewToken does. *)
Definition lemma_of (U : unicode) (v : string) (t' : token) : Prop :=
  tvalue t' = v /\ tlemma t' = true /\ NewToken U v true = Some t'.

(** ** Contractions *)

(** [e] is the expansion of [v] in the table: that of [v] itself, or else that of [v] in lower case. *)
Definition expansion (U : unicode) (table : list (string * string)) (v e : string) : Prop :=
  In (v, e) table \/ ((forall e', ~ In (v, e') table) /\ In (strings_ToLower U v, e) table).

(** The tokens that replace [t]. *)
Definition expands (U : unicode) (scan : oracle) (table : list (string * string)) (t : token) (g : list token) : Prop :=
  (exists e, expansion U table (tvalue t) e /\ Yields (TokenizeString U scan e) g) \/
  ((forall e, ~ expansion U table (tvalue t) e) /\ g = [t]).

(** The maximal pieces of [s] without space, and the spaces, as separate pieces. *)
Fixpoint split_spaces (cur : string) (s : string) : list string :=
  let flush := match cur with EmptyString => [] | _ => [cur] end in
  match s with
  | EmptyString => flush
  | String c s' =>
    if Ascii.eqb c " "%char then flush ++ " "%string :: split_spaces EmptyString s'
    else split_spaces (cur ++ String c EmptyString)%string s'
  end.

(** ** Sigils *)

(** [l'] is [l] with some pairs (sigil token, legal token) joined to lemmas. *)
Inductive joined (U : unicode) (sigil : string) (legal : string -> bool) : list token -> list token -> Prop :=
| Join_nil : joined U sigil legal [] []
| Join_keep t l l' : joined U sigil legal l l' -> joined U sigil legal (t :: l) (t :: l')
| Join_pair c b m l l' : tvalue c = sigil -> legal (tvalue b) = true ->
    lemma_of U (sigil ++ tvalue b)%string m ->
    joined U sigil legal l l' -> joined U sigil legal (c :: b :: l) (m :: l').

(** [l'] is [l] with exactly those pairs joined whose sigil token does not follow a word;
    [after_word]: the token before [l] is a word. *)
Inductive joined_exactly (U : unicode) (sigil : string) (legal : string -> bool) :
    Prop -> list token -> list token -> Prop :=
| JE_nil w : joined_exactly U sigil legal w [] []
| JE_pair (w : Prop) c b m l l' : ~ w -> tvalue c = sigil -> legal (tvalue b) = true ->
    lemma_of U (sigil ++ tvalue b)%string m ->
    joined_exactly U sigil legal (word b) l l' ->
    joined_exactly U sigil legal w (c :: b :: l) (m :: l')
| JE_keep (w : Prop) t l l' :
    (w \/ tvalue t <> sigil \/ l = [] \/ exists b r, l = b :: r /\ legal (tvalue b) = false) ->
    joined_exactly U sigil legal (word t) l l' ->
    joined_exactly U sigil legal w (t :: l) (t :: l').

(** As the filter does it: of a sigil token that does not follow a word and a token that is not legal, the second is
    neither tried as a sigil nor does what follows it depend on it. *)
Inductive joined_by_steps (U : unicode) (sigil : string) (legal : string -> bool) :
    Prop -> list token -> list token -> Prop :=
| JS_nil w : joined_by_steps U sigil legal w [] []
| JS_pair (w : Prop) c b m l l' : ~ w -> tvalue c = sigil -> legal (tvalue b) = true ->
    lemma_of U (sigil ++ tvalue b)%string m ->
    joined_by_steps U sigil legal (word m) l l' ->
    joined_by_steps U sigil legal w (c :: b :: l) (m :: l')
| JS_skip (w : Prop) c b l l' : ~ w -> tvalue c = sigil -> legal (tvalue b) = false ->
    joined_by_steps U sigil legal (word c) l l' ->
    joined_by_steps U sigil legal w (c :: b :: l) (c :: b :: l')
| JS_last (w : Prop) c : ~ w -> tvalue c = sigil -> joined_by_steps U sigil legal w [c] [c]
| JS_keep (w : Prop) t l l' : w \/ tvalue t <> sigil ->
    joined_by_steps U sigil legal (word t) l l' ->
    joined_by_steps U sigil legal w (t :: l) (t :: l').

(** ASCII letter, digit or underscore. *)
Definition handle_rune (r : N) : Prop :=
  65 <= r <= 90 \/ 97 <= r <= 122 \/ 48 <= r <= 57 \/ r = 95.

(** What the Twitter filters need of the Unicode tables. *)
Record sane (U : unicode) : Prop := {
  sane_cr : uIsSpace U 13 = true;
  sane_lf : uIsSpace U 10 = true;
  sane_at : uIsPunct U 64 = true;
  sane_hash : uIsPunct U 35 = true;
  sane_handle : forall r, handle_rune r -> uIsSpace U r = false;
  sane_hashtag : forall r, uIsLetter U r = true \/ uIsNumber U r = true -> uIsSpace U r = false
}.
