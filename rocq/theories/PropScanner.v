(** * Property theorems C14 *)

From Verif Require Import Base Utf8 Unicode UnicodeData Token Stream StreamSpec Tokenizer Words WordSplit Scanner ScannerSpec
  ScannerProofs WordSplitProofs.
Local Open Scope string_scope.

(** However the reader hands out the text [d], the tokens are those of the pieces of [d]. *)
Theorem C14_pieces_of_the_text :
  forall (split : string -> bool -> option string), split_ok split ->
  forall (start_size max_size : nat), 0 < start_size -> 0 < max_size ->
  forall (U : unicode) (rd : io_reader) (r : RS rd) (d : string) (e : rderr),
  delivers_text rd r d e -> fits max_size split d ->
  exists pieces l, cut_into split d pieces /\ Forall2 (fun p t => NewToken U p false = Some t) pieces l /\
    ends_with (TokenizeFrom start_size max_size split rd U r) l e.
Proof. exact C14_lemma. Qed.
Print Assumptions C14_pieces_of_the_text.

(** Two readers delivering the same text give the same tokens and the same end. *)
Theorem C14_chunking_does_not_matter :
  forall (split : string -> bool -> option string), split_ok split ->
  forall (start_size max_size : nat), 0 < start_size -> 0 < max_size ->
  forall (U : unicode) (rd1 : io_reader) (r1 : RS rd1) (rd2 : io_reader) (r2 : RS rd2) (d : string) (e : rderr) (l : list token),
  delivers_text rd1 r1 d e -> delivers_text rd2 r2 d e -> fits max_size split d ->
  ends_with (TokenizeFrom start_size max_size split rd1 U r1) l e ->
  ends_with (TokenizeFrom start_size max_size split rd2 U r2) l e.
Proof. exact C14_same. Qed.
Print Assumptions C14_chunking_does_not_matter.

(** Beyond the limit: the tokens are still those of a beginning of the text; then the scanner's error. *)
Theorem C14_beyond_the_limit :
  forall (split : string -> bool -> option string), split_ok split ->
  forall (start_size max_size : nat), 0 < start_size -> 0 < max_size ->
  forall (U : unicode) (rd : io_reader) (r : RS rd) (d : string) (e : rderr),
  delivers_text rd r d e ->
  exists ps qs l, cut_into split d (ps ++ qs) /\ Forall2 (fun p t => NewToken U p false = Some t) ps l /\
    ((qs = [] /\ ends_with (TokenizeFrom start_size max_size split rd U r) l e) \/
     (qs <> [] /\ ~ fits max_size split d /\ Fails (TokenizeFrom start_size max_size split rd U r) l err_too_long)).
Proof. exact C14_any. Qed.
Print Assumptions C14_beyond_the_limit.

(** The tokenizer over a buffered scanner is the one of the other theorems. *)
Theorem C14_same_as_Tokenize :
  forall (split : string -> bool -> option string), split_ok split ->
  forall (start_size max_size : nat), 0 < start_size -> 0 < max_size ->
  forall (U : unicode) (seg : string -> list string) (rd : io_reader) (r : RS rd) (d : string) (e : rderr),
  delivers_text rd r d e -> fits max_size split d -> (forall x, cut_into split x (seg x)) ->
  forall l, ends_with (Tokenize U (scan_of seg) (mkReader d (match e with EOF => None | RErr er => Some er end))) l e <->
            ends_with (TokenizeFrom start_size max_size split rd U r) l e.
Proof. exact C14_model. Qed.
Print Assumptions C14_same_as_Tokenize.

(** For the word rules of UAX #29 and any division of the text into non-empty portions. *)
Theorem C14_words :
  forall (start_size max_size : nat), 0 < start_size -> 0 < max_size ->
  forall (U : unicode) (chunks : list string) (e : rderr),
  (forall c, In c chunks -> c <> EmptyString) -> fits max_size word_split (sconcat chunks) ->
  forall l, ends_with (Tokenize U words_scan (mkReader (sconcat chunks) (match e with EOF => None | RErr er => Some er end))) l e <->
            ends_with (TokenizeFrom start_size max_size word_split (portions e) U chunks) l e.
Proof.
  exact (fun ss ms S0 M0 U ch e NE F =>
    C14_model word_split word_split_ok ss ms S0 M0 U word_segments (portions e) ch (sconcat ch) e (portions_deliver e ch NE) F word_split_cuts).
Qed.
Print Assumptions C14_words.

Example C14_example_split : split_ok word_split.
Proof. exact word_split_ok. Qed.

(** A text shorter than the buffer always fits. *)
Example C14_example_fits : forall split max_size d, String.length d < max_size -> fits max_size split d.
Proof. exact short_fits. Qed.

(** A word, a two-byte rune and a look-ahead cut by the portions. *)
Example C14_example :
  let run ch := match ToSlice 60 (TokenizeFrom 4 64 word_split (portions EOF) go_unicode ch) with
                | Ret ((l, e), _) => (map tvalue l, e)
                | _ => ([], None)
                end in
  let whole := run ["caf" ++ String "195" (String "169" " don't 3.14, stop.")] in
  let cut := run ["caf" ++ String "195" ""; String "169" " d"; "on'"; "t "; "3."; "14,"; " "; "stop"; "."] in
  whole = (["caf" ++ String "195" (String "169" ""); " "; "don't"; " "; "3.14"; ","; " "; "stop"; "."], None) /\ cut = whole.
Proof. vm_compute. split; reflexivity. Qed.

(** With room for only 8 bytes, a longer word is refused. *)
Example C14_example_limit :
  match ToSlice 60 (TokenizeFrom 4 8 word_split (portions EOF) go_unicode ["a bcdefghijklm n"]) with
  | Ret ((_, e), _) => e
  | _ => None
  end = Some err_too_long /\ ~ fits 8 word_split "a bcdefghijklm n".
Proof.
  split; [vm_compute; reflexivity|].
  intros F. apply (F ["a"; " "] ["bcdefghijklm"; " "; "n"] "bcdefghi" "jklm n"); try reflexivity.
  exact (word_split_cuts "a bcdefghijklm n").
Qed.
