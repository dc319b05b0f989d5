(** * Property theorems C92 *)

From Verif Require Import Base Utf8 Unicode UnicodeData Token Stream StreamSpec Tokenizer Filters Ascii Words WordSplit Trie Synonyms FilterSpec SynSpec ChainSpec Sources
  Scanner ScannerSpec FinalSpec PropFinalLemmas.
Local Open Scope string_scope.

(** C92 is false: after the error of its source every synonyms filter returns something else; and after the error for a word longer
    than its buffer, the tokenizer delivers tokens. *)
Theorem C92_refuted :
  (forall (U : unicode) (scan : oracle) ms ic ig D b, scanner_ok scan -> uIsSpace U 44 = false ->
   dictionary_of (key_tokens U scan) ms D -> built_from U scan ms ic ig b -> ~ final_errors (SynFilter U None b)) /\
  (forall start_size max_size, 0 < start_size -> 0 < max_size ->
   exists d, forall (U : unicode) (rd : io_reader) (r : RS rd) (e : rderr), reports_own rd -> delivers_text rd r d e ->
   exists s' l2, Emits (TokenizeFrom start_size max_size word_split rd U r) [] (Some err_too_long) s' /\ l2 <> [] /\
     FailsForGood s' l2 err_too_long).
Proof. exact C92_refutation. Qed.
Print Assumptions C92_refuted.

(** What a synonyms filter does after the error: it delivers all the output for the tokens before the error, and then the error for
    ever; or, only if a key has several words, its own complaint for ever. *)
Theorem C92_synonyms :
  forall (U : unicode) (scan : oracle), scanner_ok scan -> uIsSpace U 44 = false ->
  forall ms ic ig D b, dictionary_of (key_tokens U scan) ms D -> built_from U scan ms ic ig b ->
  exists n, widest D n /\ forall s l e, FailsForGood s l e ->
  exists s1, Emits (SynFilter U None b s) [] (Some e) s1 /\
    ((exists o, rewrites U ic ig D n l o /\ FailsForGood s1 o e) \/ (2 <= n /\ Stuck "expected buffer to be empty" s1)).
Proof. exact C92_syn. Qed.
Print Assumptions C92_synonyms.

(** What the tokenizer does after an error, for any reader: it returns the error for ever; only the scanner's own error is followed
    by more tokens, at least as many bytes as the buffer holds. *)
Theorem C92_tokenizer :
  forall (split : string -> bool -> option string), split_ok split ->
  forall (start_size max_size : nat) (U : unicode) (rd : io_reader) (r : RS rd) (l : list token) (e : error) (s' : TokenStream),
  Emits (TokenizeFrom start_size max_size split rd U r) l (Some e) s' ->
  exists l2, FailsForGood s' l2 e /\
    (l2 = [] \/ (e = err_too_long /\ max_size <= String.length (text l2))) /\
    (reports_own rd -> e = err_too_long -> max_size <= String.length (text l2)).
Proof. exact tok_after. Qed.
Print Assumptions C92_tokenizer.

(** Chains of the other filters: the error stays. *)
Theorem C92_final_partial :
  forall (U : unicode) (scan : oracle), scanner_ok scan ->
  forall fs, Forall (fun F => plain_filter U scan F \/ exists sigil legal, sigil <> EmptyString /\ F = Sigil U sigil legal) fs ->
  final_errors (ApplyFilters fs).
Proof. exact chain_final. Qed.
Print Assumptions C92_final_partial.

(** The results of the first calls of Next. *)
Fixpoint calls (n : nat) (s : TokenStream) : list (option string * option error) :=
  match n with
  | O => []
  | S n => match Next 60 s with
           | Ret ((t, e), s') => (option_map tvalue t, e) :: calls n s'
           | _ => []
           end
  end.

Example C92_example_synonyms :
  let run ms l := match build go_unicode words_scan 30 (mkConfig ms true []) with
                  | Ret (None, b) => calls 6 (SynFilter go_unicode None b (source (map tok l) (Some "read error")))
                  | _ => []
                  end in
  run [("js", "javascript")] ["I"; " "; "js"] =
    [(None, Some "read error"); (Some "I", None); (Some " ", None); (Some "javascript", None); (None, Some "read error"); (None, Some "read error")] /\
  run [("java script", "javascript")] ["I"; " "; "js"] =
    [(None, Some "read error"); (None, Some "expected buffer to be empty"); (None, Some "expected buffer to be empty"); (None, Some "expected buffer to be empty"); (None, Some "expected buffer to be empty"); (None, Some "expected buffer to be empty")].
Proof. vm_compute. split; reflexivity. Qed.

Example C92_example_tokenizer :
  calls 4 (TokenizeFrom 4 12 word_split (portions EOF) go_unicode ["seventeenths two"]) =
    [(None, Some "bufio.Scanner: token too long"); (Some "seventeenths", None); (None, Some "bufio.Scanner: token too long"); (None, Some "bufio.Scanner: token too long")].
Proof. vm_compute. reflexivity. Qed.

Example C92_example_reader : reports_own (portions EOF).
Proof.
  intros r n x er r' E. cbn [portions rread] in E. destruct r as [|c r]; [injection E as <- <- <-; discriminate|].
  destruct (Nat.leb (String.length c) n); injection E as <- <- <-; discriminate.
Qed.

Example C92_example_source : FailsForGood (source [tok "a"] (Some "read error")) [tok "a"] "read error".
Proof. exact (source_ffg [tok "a"] "read error"). Qed.
