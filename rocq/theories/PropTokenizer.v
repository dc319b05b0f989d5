(** * Property theorems C13, C15, C16 *)

From Verif Require Import Base Utf8 Unicode UnicodeData Token Stream StreamSpec Tokenizer Html Words FilterSpec
  Sources WordsProofs PropTokenizerLemmas.
From Verif Require OnceProofs.
Local Open Scope string_scope.

(** For every scanner fulfilling the contract [scanner_ok] (also one with a token-size limit). *)
Theorem C13_Tokenize_roundtrip :
  forall (U : unicode) (scan : oracle) (r : reader), scanner_ok scan ->
  exists l,
    Forall (fun t => NewToken U (tvalue t) false = Some t) l /\
    map tvalue l = pending (scan r) /\
    (exists unread, rdata r = (text l ++ unread)%string) /\
    match serr (scan r) with
    | None => rerr r = None /\ Yields (Tokenize U scan r) l /\ text l = rdata r
    | Some e => Fails (Tokenize U scan r) l e
    end.
Proof. exact C13_lemma. Qed.
Print Assumptions C13_Tokenize_roundtrip.

(** For a scanner without a size limit: all the text that was read is tokenized, also before an error. *)
Theorem C13_Tokenize_read_error :
  forall (U : unicode) (seg : string -> list string) (r : reader), seg_ok seg ->
  exists l,
    Forall (fun t => NewToken U (tvalue t) false = Some t) l /\ text l = rdata r /\
    match rerr r with
    | None => Yields (Tokenize U (scan_of seg) r) l
    | Some e => Fails (Tokenize U (scan_of seg) r) l e
    end.
Proof. exact C13_ideal_lemma. Qed.
Print Assumptions C13_Tokenize_read_error.

(** The contract is satisfiable. *)
Example C13_example_contract : seg_ok word_segments /\ scanner_ok words_scan.
Proof. split; [exact word_segments_ok|exact words_scan_ok]. Qed.

Example C13_example :
  match ToSlice 20 (Tokenize go_unicode words_scan (mkReader "Hi, don't." None)) with
  | Ret ((l, e), _) => (map tvalue l, e)
  | _ => ([], None)
  end = (["Hi"; ","; " "; "don't"; "."], None).
Proof. vm_compute. reflexivity. Qed.

Theorem C15_TokenizeHTML_complete :
  forall (U : unicode) (scan : oracle) (hs : list htoken), scanner_ok scan ->
  (forall h, In h hs -> h_type h = HText ->
     h_string h <> EmptyString /\ serr (scan (mkReader (h_string h) None)) = None) ->
  exists groups,
    Forall2 (html_piece U scan) hs groups /\
    text (concat groups) = sconcat (map h_string hs) /\
    Yields (TokenizeHTML U scan (mkHP hs None)) (concat groups) /\
    (forall e, Fails (TokenizeHTML U scan (mkHP hs (Some e))) (concat groups) e).
Proof. exact C15_lemma. Qed.
Print Assumptions C15_TokenizeHTML_complete.

(** A text node on which the scanner fails (a word that is too long, say) ends the stream with that error, after the tokens of
    everything before and those that TokenizeString delivers of the node. *)
Theorem C15_text_node_error :
  forall (U : unicode) (scan : oracle) (pre : list htoken) (h : htoken) (post : list htoken) (x : option error) (e : error),
  scanner_ok scan ->
  (forall y, In y pre -> h_type y = HText ->
     h_string y <> EmptyString /\ serr (scan (mkReader (h_string y) None)) = None) ->
  (forall y, In y pre -> ~ raw_start y) ->
  h_type h = HText -> serr (scan (mkReader (h_string h) None)) = Some e ->
  exists l g, Yields (TokenizeHTML U scan (mkHP pre None)) l /\ Fails (TokenizeString U scan (h_string h)) g e /\
    Fails (TokenizeHTML U scan (mkHP (pre ++ h :: post) x)) (l ++ g) e.
Proof. exact C15_error_lemma. Qed.
Print Assumptions C15_text_node_error.

(** A scanner that takes no word of more than five letters. *)
Example C15_example_error :
  scanner_ok (OnceProofs.limited 5) /\
  match ToSlice 20 (TokenizeHTML go_unicode (OnceProofs.limited 5)
    (mkHP [mkH StartTag (OtherAtom 1) "<p>"; mkH HText AtomZero "a javascript b"; mkH EndTag (OtherAtom 1) "</p>"] None)) with
  | Ret ((_, e), _) => e | _ => None end = Some "bufio.Scanner: token too long".
Proof. split; [apply OnceProofs.limited_ok|vm_compute; reflexivity]. Qed.

Example C15_example :
  match ToSlice 20 (TokenizeHTML go_unicode words_scan
    (mkHP [mkH StartTag (OtherAtom 1) "<p>"; mkH HText AtomZero "a b"; mkH EndTag (OtherAtom 1) "</p>"] None)) with
  | Ret ((l, e), _) => (map (fun t => (tvalue t, tpunct t)) l, e)
  | _ => ([], None)
  end = ([("<p>", true); ("a", false); (" ", false); ("b", false); ("</p>", true)], None).
Proof. vm_compute. reflexivity. Qed.

(** C16 is false: after a script element has been closed, text nodes are not tokenized
    (tokenizer_html.go:76-78 assigns to the local HTML token instead of t.parent). *)
Theorem C16_refuted :
  ~ (forall U scan pre h post, scanner_ok scan ->
     (forall x, In x (pre ++ h :: post) -> h_type x = HText ->
        h_string x <> EmptyString /\ serr (scan (mkReader (h_string x) None)) = None) ->
     h_type h = HText -> ~ inside_raw pre ->
     exists l1 g l2, Yields (TokenizeHTML U scan (mkHP (pre ++ h :: post) None)) (l1 ++ g ++ l2) /\
       text l1 = sconcat (map h_string pre) /\
       Yields (TokenizeString U scan (h_string h)) g).
Proof. exact C16_refutation. Qed.
Print Assumptions C16_refuted.

Example C16_witness :
  match ToSlice 20 (TokenizeHTML go_unicode words_scan
    (mkHP (script_doc ++ [mkH HText AtomZero "a b"]) None)) with
  | Ret ((l, e), _) => (map tvalue l, e)
  | _ => ([], None)
  end = (["<script>"; "x"; "</script>"; "a b"], None).
Proof. vm_compute. reflexivity. Qed.

(** What does hold: a text node is tokenized if no script or style start tag precedes it, and is
    kept as one token if one does.  Missing for C16: tokenization after the element is closed. *)
Theorem C16_text_nodes_partial :
  forall U scan pre h post, scanner_ok scan ->
  (forall x, In x (pre ++ h :: post) -> h_type x = HText ->
     h_string x <> EmptyString /\ serr (scan (mkReader (h_string x) None)) = None) ->
  h_type h = HText ->
  exists l1 g l2, Yields (TokenizeHTML U scan (mkHP (pre ++ h :: post) None)) (l1 ++ g ++ l2) /\
    text l1 = sconcat (map h_string pre) /\
    ((forall x, In x pre -> ~ raw_start x) -> Yields (TokenizeString U scan (h_string h)) g) /\
    ((exists x, In x pre /\ raw_start x) -> g = [mkToken (h_string h) false false false]).
Proof. exact C16_partial_lemma. Qed.
Print Assumptions C16_text_nodes_partial.
