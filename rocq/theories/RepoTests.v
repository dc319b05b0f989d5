(** * RepoTests: some of the repository's own unit tests, replayed on the model.

    The word boundaries are those of Words.v, not of the uax29 package.

    These are tests (examples), not proofs of properties: they check that the model computes what
    the repository's test-suite expects of the code. *)

From Verif Require Import Base Utf8 Unicode UnicodeData Token Stream StreamSpec Queue Tokenizer Words
  Filters Ascii Trie Synonyms ContractionsTable SoTable.
Local Open Scope string_scope.

Definition U := go_unicode.
Definition F := 400%nat.

Definition tokenize (s : string) := TokenizeString U words_scan s.
Definition outs {A B} (o : outcome (A * B)) : outcome A :=
  match o with Ret (a, _) => Ret a | Panic => Panic | NoFuel => NoFuel end.
Definition strs (s : TokenStream) : outcome (list string * option error) :=
  match ToSlice F s with
  | Ret ((l, e), _) => Ret (map tvalue l, e) | Panic => Panic | NoFuel => NoFuel end.
Definition str (s : TokenStream) := outs (StreamString F s).

(** tokenizer_test.go:10-142 TestTokenizer: the same text, roundtrip check and expectations. *)
Definition CR := String "013" "". Definition LF := String "010" "". Definition TAB := String "009" "".
Definition test_tokenizer_text : string :=
  ("Hi.    " ++ LF ++ TAB ++ "node.js, first_last, my.name@domain.com" ++ LF ++ TAB ++ "123.456, 789, .234, 1,000, a16z, 3G and $200.13." ++ LF ++ TAB ++ "wishy-washy and C++ and F# and .net" ++ LF ++ TAB ++ "Let’s Let's possessive' possessive’" ++ LF ++ TAB ++ "ש״ח" ++ LF ++ TAB ++ "א""ב" ++ LF ++ TAB ++ "ב'" ++ LF ++ TAB ++ """אא""בב""abc" ++ LF ++ TAB ++ "Then ウィキペディア and 象形.") ++ ("crlf is " ++ CR ++ LF).
Definition test_tokenizer_expecteds : list (string * bool) :=
  [("Hi", true);
   (".", true);
   ("Hi.", false);
   ("node.js", true);
   ("node", false);
   ("js", false);
   ("first_last", true);
   ("first", false);
   ("_", false);
   ("last", false);
   ("my.name", true);
   ("my.name@", false);
   ("@", true);
   ("domain.com", true);
   ("@domain.com", false);
   ("123.456", true);
   ("123,", false);
   ("456", false);
   ("123.456,", false);
   ("789", true);
   ("789,", false);
   (".234", false);
   ("234", true);
   ("1,000", true);
   ("1,000,", false);
   ("wishy-washy", false);
   ("wishy", true);
   ("-", true);
   ("washy", true);
   ("C++", false);
   ("C", true);
   ("+", true);
   ("F#", false);
   ("F", true);
   ("#", true);
   (".net", false);
   ("net", true);
   ("Let's", true);
   ("Let’s", true);
   ("Let", false);
   ("s", false);
   ("possessive", true);
   ("'", true);
   ("’", true);
   ("possessive'", false);
   ("possessive’", false);
   ("a16z", true);
   ("3G", true);
   ("$", true);
   ("200.13", true);
   ("ש״ח", true);
   ("א""ב", true);
   ("ב'", true);
   ("אא""בב", true);
   ("abc", true);
   ("ウィキペディア", true);
   ("ウ", false);
   ("象", true);
   ("形", true);
   ("象形", false);
   ((CR ++ LF), true);
   (CR, false)].

Example test_tokenizer_roundtrip : str (tokenize test_tokenizer_text) = Ret (test_tokenizer_text, None).
Proof. vm_compute. reflexivity. Qed.
Example test_tokenizer_expected :
  match strs (tokenize test_tokenizer_text) with
  | Ret (got, None) => forallb (fun p => Bool.eqb (smem (fst p) got) (snd p)) test_tokenizer_expecteds
  | _ => false
  end = true.
Proof. vm_compute. reflexivity. Qed.

(** tokenstream_test.go TestDistinct *)
Example test_distinct :
  str (Distinct (tokenize "one two three three two one four")) = Ret ("one twothreefour", None).
Proof. vm_compute. reflexivity. Qed.

(** filters/stopwords/filter_test.go *)
Example test_stop_first_cases :
  str (Stopwords U ["One"; "four"; "five"] false (tokenize "One two three four five"))
  = Ret (" two three  ", None)
  /\ str (Stopwords U ["One"; "four"; "five"] true (tokenize "One two three four five"))
  = Ret (" two three  ", None).
Proof. vm_compute. split; reflexivity. Qed.
Example test_stop_sensitive :
  str (Stopwords U ["One"; "four"; "five"] false (tokenize "one two three Four five"))
  = Ret ("one two three Four ", None).
Proof. vm_compute. reflexivity. Qed.
Example test_stop_insensitive :
  str (Stopwords U ["One"; "four"; "five"] true (tokenize "one two three Four five"))
  = Ret (" two three  ", None).
Proof. vm_compute. reflexivity. Qed.

(** filters/mapper/filter_test.go *)
Definition lower_fn : mapfunc := fun t =>
  let s := strings_ToLower U (tvalue t) in
  if negb (seqb s (tvalue t)) then NewToken U s true else Some t.
Example test_mapper :
  str (Mapper [lower_fn] (tokenize "Here IS a nEw tesT.")) = Ret ("here is a new test.", None).
Proof. vm_compute. reflexivity. Qed.

(** filters/contractions/filter_test.go *)
Example test_contractions :
  str (Contractions U words_scan contraction_mappings
        (tokenize "i'll SHE’D they're Can’t should've GOTTA Wanna"))
  = Ret ("i will SHE WOULD they are Can not should have GOT TO Want to", None).
Proof. vm_compute. reflexivity. Qed.

(** filters/twitter/example_test.go *)
Example test_handles :
  strs (Handles U (tokenize "Here's a @username."))
  = Ret (["Here's"; " "; "a"; " "; "@username"; "."], None).
Proof. vm_compute. reflexivity. Qed.

(** filters/synonyms/filter_test.go TestFilter, TestPassthrough, TestLazyLoad *)
Definition syn (ms : list (string * string)) (ic : bool) (ign : list N) : Filter :=
  match build U words_scan F (mkConfig ms ic ign) with
  | Ret (err, b) => SynFilter U err b
  | _ => fun s => s
  end.

Definition dash_etc : list N := [45; 32; 46; 47]%N.

Example test_synonyms :
  str (syn [("developer, engineer, programmer,", "boffin");
            ("rock star, 10x developer", "cliché");
            ("Ruby on Rails, rails", "ruby-on-rails");
            ("nodeJS, iojs", "node.js")] true dash_etc
        (tokenize "we are looking for a rockstar, 10x developer, or engineer, for ruby on rails and Nodejs"))
  = Ret ("we are looking for a cliché, cliché, or boffin, for ruby-on-rails and node.js", None).
Proof. vm_compute. reflexivity. Qed.

Example test_passthrough :
  outs (ToSlice F (syn [] false [] (tokenize "This is a test, with spaces and punctuation.")))
  = outs (ToSlice F (tokenize "This is a test, with spaces and punctuation.")).
Proof. vm_compute. reflexivity. Qed.

Example test_lazyload :
  str (syn [("developer, engineer, programmer,", "boffin")] true dash_etc
        (tokenize "we are looking for a developer or engineer"))
  = Ret ("we are looking for a boffin or boffin", None).
Proof. vm_compute. reflexivity. Qed.

(** filters/synonyms/filter_test.go TestFill *)
Definition toks (l : list string) : list token :=
  flat_map (fun s => match NewToken U s false with Some t => [t] | None => [] end) l.
Definition fill_test (input : string) (maxWords : nat) (previous : list string) :=
  match fill F maxWords (mkSyn (tokenize input) (toks previous) []) with
  | Ret (e, st) => Some (e, map tvalue (y_buf st), map tvalue (y_out st))
  | _ => None
  end.
Example test_fill :
  fill_test "test one" 3 [] = Some (None, ["test"; " "; "one"], [])
  /\ fill_test "test two" 1 [] = Some (None, ["test"], [])
  /\ fill_test " test three" 2 [] = Some (None, ["test"; " "; "three"], [" "])
  /\ fill_test "test four, and five" 4 [] = Some (None, ["test"; " "; "four"; ","], [])
  /\ fill_test ", test six and seven" 4 []
     = Some (None, ["test"; " "; "six"; " "; "and"; " "; "seven"], [","; " "])
  /\ fill_test " test eight and nine" 4 ["previous"; " "; "stuff"]
     = Some (None, ["previous"; " "; "stuff"; " "; "test"; " "; "eight"], [])
  /\ fill_test ". test ten and eleven" 4 ["previous"; " "; "stuff"]
     = Some (None, ["previous"; " "; "stuff"; "."], [])
  /\ fill_test " test twelve and thirteen" 3 ["."; " "; "leftover"]
     = Some (None, ["leftover"; " "; "test"; " "; "twelve"], ["."; " "]).
Proof. vm_compute. repeat split. Qed.

(** filters/stackoverflow/filter_test.go TestFilter, with the whole shipped dictionary *)
Definition so_built : option built :=
  Eval vm_compute in
  match build U words_scan F (mkConfig so_mappings true [32; 45; 46; 47]%N) with
  | Ret (None, b) => Some b
  | _ => None
  end.
Definition Tags : Filter :=
  match so_built with Some b => SynFilter U None b | None => fun s => s end.
Example test_tags :
  map (fun s => str (Tags (tokenize s)))
    ["Foo"; "c sharp"; "C#"; "C++"; "something about Ruby on Rails, and such.";
     "more about Ruby stuff"; "Rub"]
  = map (fun s => Ret (s, None))
    ["Foo"; "c#"; "c#"; "c++"; "something about ruby-on-rails, and such.";
     "more about ruby stuff"; "Rub"].
Proof. vm_compute. reflexivity. Qed.

(** filters/ascii/fold_test.go:27-68 TestLatin1Accents.  As in the Go test, only the number of fields
    and the per-field [folded] flags are compared (the expected text of the Go test is never compared
    with the result).  The fields are written out instead of calling strings.Fields. *)
Definition fold_inputs : list string := ["Des"; "mot"; "clés"; "À"; "LA"; "CHAÎNE"; "À"; "Á"; "Â"; "Ã"; "Ä"; "Å"; "Æ"; "Ç"; "È"; "É"; "Ê"; "Ë"; "Ì"; "Í"; "Î"; "Ï"; "Ĳ"; "Ð"; "Ñ"; "Ò"; "Ó"; "Ô"; "Õ"; "Ö"; "Ø"; "Œ"; "Þ"; "Ù"; "Ú"; "Û"; "Ü"; "Ý"; "Ÿ"; "à"; "á"; "â"; "ã"; "ä"; "å"; "æ"; "ç"; "è"; "é"; "ê"; "ë"; "ì"; "í"; "î"; "ï"; "ĳ"; "ð"; "ñ"; "ò"; "ó"; "ô"; "õ"; "ö"; "ø"; "œ"; "ß"; "þ"; "ù"; "ú"; "û"; "ü"; "ý"; "ÿ"; "ﬁ"; "ﬂ"].
Definition fold_expecteds : list string := ["Des"; "mot"; "cles"; "AA"; "LA"; "CHAINE"; "AA"; "AA"; "AA"; "AA"; "AA"; "AA"; "AE"; "C"; "E"; "E"; "E"; "E"; "I"; "I"; "I"; "I"; "IJ"; "D"; "N"; "O"; "O"; "O"; "O"; "O"; "O"; "OE"; "TH"; "U"; "U"; "U"; "U"; "Y"; "Y"; "a"; "a"; "a"; "a"; "a"; "a"; "ae"; "c"; "e"; "e"; "e"; "e"; "i"; "i"; "i"; "i"; "ij"; "d"; "n"; "o"; "o"; "o"; "o"; "o"; "o"; "oe"; "ss"; "th"; "u"; "u"; "u"; "u"; "y"; "y"; "fi"; "fl"].
Definition fold_input : string := ("Des mot clés À LA CHAÎNE À Á Â Ã Ä Å Æ Ç È É Ê Ë Ì Í Î Ï Ĳ Ð Ñ" ++ LF ++ " Ò Ó Ô Õ Ö Ø Œ Þ Ù Ú Û Ü Ý Ÿ à á â ã ä å æ ç è é ê ë ì í î ï ĳ" ++ LF ++ " ð ñ ò ó ô õ ö ø œ ß þ ù ú û ü ý ÿ ﬁ ﬂ").
Example test_fold_lengths : length fold_inputs = length fold_expecteds.
Proof. reflexivity. Qed.
Example test_fold_input : snd (FoldString fold_input) = true.
Proof. vm_compute. reflexivity. Qed.
Definition space_fields (s : string) : nat :=
  length (filter (fun p => Bool.eqb (fst p) true)
    (snd (fold_left (fun (st : bool * list (bool * N)) r =>
       let sp := orb (N.eqb r 32) (N.eqb r 10) in
       (sp, if sp then snd st else (fst st, r) :: snd st)) (runes s) (true, [])))).
Example test_fold_fields : space_fields (fst (FoldString fold_input)) = length fold_expecteds.
Proof. vm_compute. reflexivity. Qed.
Example test_fold_flags :
  map (fun s => snd (FoldString s)) fold_inputs
  = map (fun i => negb (Nat.ltb i 2 || Nat.eqb i 4)) (seq 0 (length fold_inputs)).
Proof. vm_compute. reflexivity. Qed.

(** Own example, not from the repository. *)
Example own_fold :
  FoldString "clés CHAÎNE ﬁ ﬂ Ĳ ß þ" = ("cles CHAINE fi fl IJ ss th", true).
Proof. vm_compute. reflexivity. Qed.
