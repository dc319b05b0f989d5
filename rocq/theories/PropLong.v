(** * Property theorems C91 *)

From Verif Require Import Base Utf8 Unicode UnicodeData Token Stream StreamSpec Tokenizer Words WordSplit Scanner ScannerSpec ScannerProofs PropLongLemmas.
Local Open Scope string_scope.

(** C91 is false: a text of one word, a byte longer than the scanner's buffer can become, gives an error and no token. *)
Theorem C91_refuted :
  forall (start_size max_size : nat), 0 < start_size -> 0 < max_size ->
  exists d, word_segments d = [d] /\ String.length d = S max_size /\
  forall (U : unicode) (rd : io_reader) (r : RS rd) (e : rderr), delivers_text rd r d e ->
  Fails (TokenizeFrom start_size max_size word_split rd U r) [] "bufio.Scanner: token too long".
Proof. exact C91_refutation2. Qed.
Print Assumptions C91_refuted.

(** So it is for every split function and every text with such a word: only words before it are delivered. *)
Theorem C91_long_words :
  forall (split : string -> bool -> option string), split_ok split ->
  forall (start_size max_size : nat), 0 < start_size -> 0 < max_size ->
  forall (U : unicode) (rd : io_reader) (r : RS rd) (d : string) (e : rderr) (pieces : list string) (p : string),
  delivers_text rd r d e -> cut_into split d pieces -> In p pieces -> max_size < String.length p ->
  exists ps qs l, (pieces = ps ++ qs)%list /\ ~ In p ps /\ Forall2 (fun p t => NewToken U p false = Some t) ps l /\
    Fails (TokenizeFrom start_size max_size split rd U r) l "bufio.Scanner: token too long".
Proof. exact C91_long. Qed.
Print Assumptions C91_long_words.

(** Whatever the reader does, no token is longer. *)
Theorem C91_tokens_are_short :
  forall (split : string -> bool -> option string), split_ok split ->
  forall (start_size max_size : nat) (U : unicode) (rd : io_reader) (r : RS rd) (l : list token) (s' : TokenStream),
  Pulls (TokenizeFrom start_size max_size split rd U r) l s' -> forall t, In t l -> String.length (tvalue t) <= max_size.
Proof. exact short_pulls. Qed.
Print Assumptions C91_tokens_are_short.

(** All words are delivered if any two neighbours are together shorter than the buffer by four bytes. *)
Theorem C91_short_words_partial :
  forall (start_size max_size : nat), 0 < start_size -> 0 < max_size ->
  forall (U : unicode) (rd : io_reader) (r : RS rd) (d : string) (e : rderr), delivers_text rd r d e ->
  (forall ps p qs, word_segments d = (ps ++ p :: qs)%list ->
     String.length p < max_size /\ forall q qs', qs = q :: qs' -> String.length p + String.length q + 3 < max_size) ->
  exists l, Forall2 (fun p t => NewToken U p false = Some t) (word_segments d) l /\
    ends_with (TokenizeFrom start_size max_size word_split rd U r) l e.
Proof. exact C91_words. Qed.
Print Assumptions C91_short_words_partial.

(** Buffers of at most 12 bytes. *)
Example C91_example :
  let run d := match ToSlice 60 (TokenizeFrom 4 12 word_split (portions EOF) go_unicode [d]) with
               | Ret ((l, e), _) => (map tvalue l, e)
               | _ => ([], None)
               end in
  run "one two three" = (["one"; " "; "two"; " "; "three"], None) /\
  run "one seventeenths two" = ([], Some "bufio.Scanner: token too long").
Proof. vm_compute. split; reflexivity. Qed.

Example C91_example_words :
  forall ps p qs, word_segments "one two three" = (ps ++ p :: qs)%list ->
  String.length p < 12 /\ forall q qs', qs = q :: qs' -> String.length p + String.length q + 3 < 12.
Proof.
  intros ps p qs E. assert (W : word_segments "one two three" = ["one"; " "; "two"; " "; "three"]) by (vm_compute; reflexivity). rewrite W in E. clear W.
  do 5 (destruct ps as [|? ps]; [injection E as <- <-; split; [cbn; lia|]; intros q qs' F; try discriminate F; injection F as <- _; cbn; lia|apply (f_equal (@tl string)) in E; cbn [tl app] in E]).
  destruct ps; discriminate E.
Qed.
