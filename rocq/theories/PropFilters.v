(** * Property theorems C17 - C19, C25 - C28, C31 - C33 *)

From Verif Require Import Base Utf8 Unicode UnicodeData Token Stream StreamSpec Tokenizer Filters Words ContractionsTable
  FilterSpec Sources WordsProofs PropFiltersLemmas PropSigilLemmas.
From Verif Require OnceProofs.

(** ** C17 Stop words *)

Theorem C17_Stopwords :
  forall (U : unicode) (words : list string) (ignoreCase : bool) (keep : token -> bool)
    (s : TokenStream) (l : list token),
  let key v := if ignoreCase then strings_ToLower U v else v in
  (forall t, keep t = true <-> ~ exists w, In w words /\ key w = key (tvalue t)) ->
  (Yields s l -> Yields (Stopwords U words ignoreCase s) (filter keep l)) /\
  (forall e, Fails s l e -> Fails (Stopwords U words ignoreCase s) (filter keep l) e) /\
  (forall t s1, keep t = true -> Pulls s (l ++ [t]) s1 ->
     exists w, Pulls (Stopwords U words ignoreCase s) (filter keep l ++ [t]) w /\
               ts_next w = ts_next (Stopwords U words ignoreCase s1)).
Proof. exact C17_lemma. Qed.
Print Assumptions C17_Stopwords.

Example C17_example :
  (match ToSlice 9 (Stopwords go_unicode ["The"%string] true (source [tok "the"; tok " "; tok "cat"; tok "THE"] None)) with
   | Ret ((l, e), _) => (map tvalue l, e) | _ => ([], None) end = ([" "; "cat"]%string, None)) /\
  (match ToSlice 9 (Stopwords go_unicode ["The"%string] false (source [tok "the"; tok "The"] None)) with
   | Ret ((l, e), _) => (map tvalue l, e) | _ => ([], None) end = (["the"]%string, None)).
Proof. vm_compute. split; reflexivity. Qed.

(** ** C18, C19 Mapper *)

Theorem C18_Mapper :
  forall (gs : list (token -> token)) (s : TokenStream) (l : list token),
  let F := Mapper (map (fun g t => Some (g t)) gs) in
  let out := map (fold_left (fun t g => g t) gs) l in
  (Yields s l -> Yields (F s) out) /\
  (forall e, Fails s l e -> Fails (F s) out e) /\
  (forall s', Pulls s l s' -> exists w, Pulls (F s) out w /\ ts_next w = ts_next (F s')).
Proof. exact C18_lemma. Qed.
Print Assumptions C18_Mapper.

Example C18_example :
  let g x (t : token) := mkToken (tvalue t ++ x) (tpunct t) (tspace t) true in
  match ToSlice 9 (Mapper (map (fun g t => Some (g t)) [g "1"; g "2"]%string) (source [tok "a"; tok "b"] None)) with
  | Ret ((l, e), _) => (map tvalue l, e) | _ => ([], None) end = (["a12"; "b12"]%string, None).
Proof. vm_compute. reflexivity. Qed.

(** C19 is false: ToSlice (like every consumer) stops at the token for which the function returned nil. *)
Theorem C19_refuted :
  ~ (forall (f : mapfunc) s l, Yields s l ->
     exists l' s', Returns (fun n => ToSlice n (Mapper [f] s)) ((l', None), s') /\
       forall t t', In t l -> f t = Some t' -> In t' l').
Proof. exact C19_refutation. Qed.
Print Assumptions C19_refuted.

(** With a further function after it, the call panics instead. *)
Theorem C19_further_function_panics :
  forall (f g : mapfunc) (fs : list mapfunc) s t s1,
  Nexts s (Some t, None) s1 -> f t = None -> Panics (fun n => Next n (Mapper (f :: g :: fs) s)).
Proof. exact C19_panic_lemma. Qed.
Print Assumptions C19_further_function_panics.

(** What holds: with a single function Next returns (nil, nil) for that token, and calling Next again goes on with
    the tokens after it.  Missing: consumers take (nil, nil) for the end. *)
Theorem C19_raw_Next_continues_partial :
  forall (f : mapfunc) s t s1,
  Nexts s (Some t, None) s1 -> f t = None ->
  exists w, Nexts (Mapper [f] s) (None, None) w /\ ts_next w = ts_next (Mapper [f] s1).
Proof. exact C19_partial_lemma. Qed.
Print Assumptions C19_raw_Next_continues_partial.

Example C19_witness :
  match ToSlice 9 (Mapper [drop_b] (source [tok "a"; tok "b"; tok "c"] None)) with
  | Ret ((l, e), _) => (map tvalue l, e) | _ => ([], None) end = (["a"%string], None).
Proof. vm_compute. reflexivity. Qed.

(** ** C25 Stemmer, C26 Norm *)

Theorem C25_Stemmer :
  forall (U : unicode) (stem : string -> bool -> string) (s : TokenStream) (l : list token),
  (forall t, In t l -> word t -> stem (tvalue t) true <> EmptyString) ->
  exists l',
  Forall2 (fun t t' =>
     (~ word t \/ stem (tvalue t) true = tvalue t -> t' = t) /\
     (word t -> stem (tvalue t) true <> tvalue t -> lemma_of U (stem (tvalue t) true) t')) l l' /\
  (Yields s l -> Yields (Stemmer U stem s) l') /\
  (forall e, Fails s l e -> Fails (Stemmer U stem s) l' e) /\
  (forall s', Pulls s l s' -> exists w, Pulls (Stemmer U stem s) l' w /\ ts_next w = ts_next (Stemmer U stem s')).
Proof. exact C25_lemma. Qed.
Print Assumptions C25_Stemmer.

Example C25_example :
  let stem v (_ : bool) := if seqb v "cats" then "cat"%string else v in
  match ToSlice 9 (Stemmer go_unicode stem (source [tok "cats"; tok ","; tok " "; tok "dog"] None)) with
  | Ret ((l, e), _) => (l, e) | _ => ([], None) end = ([lem "cat"; tok ","; tok " "; tok "dog"], None).
Proof. vm_compute. reflexivity. Qed.

Theorem C26_Norm :
  forall (U : unicode) (isNormal : string -> bool) (normalize : string -> string),
  (forall v, isNormal v = false -> v <> EmptyString -> normalize v <> EmptyString /\ isNormal (normalize v) = true) ->
  forall (s : TokenStream) (l : list token), Forall (made U) l ->
  exists l',
  Forall2 (fun t t' => if isNormal (tvalue t) then t' = t else lemma_of U (normalize (tvalue t)) t') l l' /\
  (Yields s l -> Yields (Norm U isNormal normalize s) l' /\
     Yields (Norm U isNormal normalize (Norm U isNormal normalize s)) l') /\
  (forall e, Fails s l e -> Fails (Norm U isNormal normalize s) l' e /\
     Fails (Norm U isNormal normalize (Norm U isNormal normalize s)) l' e) /\
  (forall s', Pulls s l s' -> exists w, Pulls (Norm U isNormal normalize s) l' w /\
     ts_next w = ts_next (Norm U isNormal normalize s')).
Proof. exact C26_lemma. Qed.
Print Assumptions C26_Norm.

(** A toy normal form: "X" is written "x". *)
Example C26_example :
  let isn v := negb (seqb v "X") in
  let nrm v := if seqb v "X" then "x"%string else v in
  (forall v, isn v = false -> v <> EmptyString -> nrm v <> EmptyString /\ isn (nrm v) = true) /\
  match ToSlice 9 (Norm go_unicode isn nrm (source [tok "X"; tok "y"] None)) with
  | Ret ((l, e), _) => (l, e) | _ => ([], None) end = ([lem "x"; tok "y"], None).
Proof.
  cbv zeta. split; [|vm_compute; reflexivity]. intros v H _. destruct (seqb v "X"); [|discriminate].
  split; [discriminate|reflexivity].
Qed.

(** ** C27, C28 Contractions *)

Theorem C27_Expand :
  forall (U : unicode) (scan : oracle) (table : list (string * string)),
  scanner_ok scan -> NoDup (map fst table) ->
  (forall k v, In (k, v) table -> v <> EmptyString /\ serr (scan (mkReader v None)) = None) ->
  forall (s : TokenStream) (l : list token), exists groups,
  Forall2 (expands U scan table) l groups /\
  (Yields s l -> Yields (Contractions U scan table s) (concat groups)) /\
  (forall e, Fails s l e -> Fails (Contractions U scan table s) (concat groups) e) /\
  (forall s', Pulls s l s' -> exists w, Pulls (Contractions U scan table s) (concat groups) w /\
     ts_next w = ts_next (Contractions U scan table s')).
Proof. exact C27_lemma. Qed.
Print Assumptions C27_Expand.

(** The shipped table and the example scanner meet the hypotheses. *)
Example C27_example_hypotheses :
  scanner_ok words_scan /\ NoDup (map fst contraction_mappings) /\
  (forall k v, In (k, v) contraction_mappings -> v <> EmptyString /\ serr (words_scan (mkReader v None)) = None).
Proof.
  split; [exact words_scan_ok|]. split; [exact contraction_keys|]. intros k v H. split; [|reflexivity].
  pose proof contraction_pieces as T. rewrite forallb_forall in T. specialize (T _ H). cbn [snd] in T.
  destruct v; [discriminate|discriminate].
Qed.

Example C27_example :
  match ToSlice 30 (Contractions go_unicode words_scan contraction_mappings
     (source [tok "I"; tok " "; tok "DON'T"; tok " "; tok "dOn't"; tok "."] None)) with
  | Ret ((l, e), _) => (map tvalue l, e) | _ => ([], None) end
  = (["I"; " "; "DO"; " "; "NOT"; " "; "do"; " "; "not"; "."]%string, None).
Proof. vm_compute. reflexivity. Qed.

(** An expansion that cannot be tokenized ends the stream with that error, after the expansions of all the tokens before. *)
Theorem C27_expansion_error :
  forall (U : unicode) (scan : oracle) (table : list (string * string)) (s : TokenStream) (l : list token) (t : token) (s' : TokenStream) (v : string) (e : error),
  scanner_ok scan -> NoDup (map fst table) ->
  (forall x w, In x l -> expansion U table (tvalue x) w -> w <> EmptyString /\ serr (scan (mkReader w None)) = None) ->
  Pulls s (l ++ [t]) s' -> expansion U table (tvalue t) v -> serr (scan (mkReader v None)) = Some e ->
  exists groups, Forall2 (expands U scan table) l groups /\ Fails (Contractions U scan table s) (concat groups) e.
Proof. exact C27_error_lemma. Qed.
Print Assumptions C27_expansion_error.

(** A scanner that takes no word of more than five letters. *)
Example C27_example_error :
  scanner_ok (OnceProofs.limited 5) /\
  match ToSlice 30 (Contractions go_unicode (OnceProofs.limited 5) [("isn't", "is not"); ("js", "javascript")]%string
     (source [tok "isn't"; tok " "; tok "JS"; tok "."] None)) with
  | Ret ((_, e), _) => e | _ => None end = Some "bufio.Scanner: token too long"%string.
Proof. split; [apply OnceProofs.limited_ok|vm_compute; reflexivity]. Qed.

(** For every scanner that splits the expansions in the table at their spaces. *)
Theorem C28_Expand_idempotent :
  forall (U : unicode) (scan : oracle), scanner_ok scan ->
  (forall k v, In (k, v) contraction_mappings -> scan (mkReader v None) = mkScanner (split_spaces "" v) None) ->
  forall s l, let Expand := Contractions U scan contraction_mappings in
  (Yields s l -> exists l', Yields (Expand s) l' /\ Yields (Expand (Expand s)) l') /\
  (forall e, Fails s l e -> exists l', Fails (Expand s) l' e /\ Fails (Expand (Expand s)) l' e).
Proof. exact C28_lemma. Qed.
Print Assumptions C28_Expand_idempotent.

Example C28_example :
  forall k v, In (k, v) contraction_mappings -> words_scan (mkReader v None) = mkScanner (split_spaces "" v) None.
Proof. exact words_scan_splits. Qed.

(** ** C31 - C33 Sigils *)

(** When the source fails while a sigil token is waiting for its successor, that sigil token is not delivered
    (see C42); nothing else is lost. *)
Theorem C31_Sigil_preserves_text :
  forall (U : unicode) (sigil : string) (legal : string -> bool), sigil <> EmptyString ->
  forall (s : TokenStream) (l : list token),
  (Yields s l -> exists l', Yields (Sigil U sigil legal s) l' /\ joined U sigil legal l l' /\ text l' = text l) /\
  (forall e, Fails s l e -> exists l0 lost l', l = l0 ++ lost /\ (lost = [] \/ exists c, lost = [c] /\ tvalue c = sigil) /\
     Fails (Sigil U sigil legal s) l' e /\ joined U sigil legal l0 l' /\ text l' = text l0).
Proof. exact C31_lemma'. Qed.
Print Assumptions C31_Sigil_preserves_text.

Example C31_example :
  match ToSlice 30 (Handles go_unicode (source [tok "hi"; tok " "; tok "@"; tok "bob"; tok "@"; tok "x"; tok " "; tok "@"] None)) with
  | Ret ((l, e), _) => (l, e) | _ => ([], None) end
  = ([tok "hi"; tok " "; lem "@bob"; tok "@"; tok "x"; tok " "; tok "@"], None).
Proof. vm_compute. reflexivity. Qed.

(** C32 is false: in "@@foo" the second sigil was already consumed as look-ahead and is not tried. *)
Theorem C32_refuted :
  ~ (forall U s l, sane U -> Yields s l -> Forall (made U) l ->
     exists l', Yields (Handles U s) l' /\ joined_exactly U "@" legalHandle False l l').
Proof. exact C32_refutation. Qed.
Print Assumptions C32_refuted.

(** It holds when no sigil token is followed by an illegal token that is itself a sigil or a word. *)
Theorem C32_Twitter_exact_partial :
  forall U : unicode, sane U -> forall s l, Yields s l -> Forall (made U) l ->
  ((forall a c b d, l = a ++ c :: b :: d -> tvalue c = "@"%string ->
      legalHandle (tvalue b) = true \/ (tvalue b <> "@"%string /\ ~ word b)) ->
   exists l', Yields (Handles U s) l' /\ joined_exactly U "@" legalHandle False l l') /\
  ((forall a c b d, l = a ++ c :: b :: d -> tvalue c = "#"%string ->
      legalHashtag U (tvalue b) = true \/ (tvalue b <> "#"%string /\ ~ word b)) ->
   exists l', Yields (Hashtags U s) l' /\ joined_exactly U "#" (legalHashtag U) False l l').
Proof. exact C32_partial_lemma. Qed.
Print Assumptions C32_Twitter_exact_partial.

(** [joined_exactly] determines the output. *)
Theorem C32_spec_is_functional :
  forall U sigil legal l w w' l1 l2, (w <-> w') ->
  joined_exactly U sigil legal w l l1 -> joined_exactly U sigil legal w' l l2 -> l1 = l2.
Proof. exact joined_exactly_inj. Qed.
Print Assumptions C32_spec_is_functional.

Example C32_example : sane go_unicode.
Proof. exact go_sane. Qed.
Example C32_witness :
  match ToSlice 30 (Handles go_unicode (source [tok "@"; tok "@"; tok "foo"] None)) with
  | Ret ((l, e), _) => (map tvalue l, e) | _ => ([], None) end = (["@"; "@"; "foo"]%string, None) /\
  match ToSlice 30 (Handles go_unicode (source [tok "@"; tok "a_too_long_a_name"; tok "@"; tok "foo"] None)) with
  | Ret ((l, e), _) => (map tvalue l, e) | _ => ([], None) end = (["@"; "a_too_long_a_name"; "@foo"]%string, None).
Proof. vm_compute. split; reflexivity. Qed.

Theorem C33_legal_handle :
  forall v, legalHandle v = true <-> length (runes v) <= 15 /\ Forall handle_rune (runes v).
Proof. exact C33_handle_lemma. Qed.
Print Assumptions C33_legal_handle.

Theorem C33_legal_hashtag :
  forall U v, legalHashtag U v = true <->
  (exists r, runes v = [r] /\ uIsLetter U r = true) \/
  (length (runes v) <> 1 /\ Forall (fun r => uIsLetter U r = true \/ uIsNumber U r = true \/ r = 95%N) (runes v)).
Proof. exact C33_hashtag_lemma. Qed.
Print Assumptions C33_legal_hashtag.

Example C33_example :
  legalHandle "bob_15"%string = true /\ legalHandle "sixteen_letters_"%string = false /\ legalHandle "a-b"%string = false /\
  legalHashtag go_unicode "a"%string = true /\ legalHashtag go_unicode "1"%string = false /\
  legalHashtag go_unicode "1_2"%string = true.
Proof. vm_compute. repeat split; reflexivity. Qed.
