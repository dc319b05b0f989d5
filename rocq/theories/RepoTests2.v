(** * RepoTests2: more of the repository's unit tests, and the examples of its README files, replayed on the model.

    As in RepoTests.v, these are tests of the model.  The word boundaries are those of Words.v; what the HTML parser delivers is
    written out. *)

From Coq Require Import ZArith.
From Verif Require Import Base Utf8 Unicode UnicodeData Token Stream StreamSpec Tokenizer Words Html Filters Ascii ContractionsTable
  ContractionsGen Scanner Cli Web RepoTests.
Local Open Scope string_scope.

Definition null : writer := mkWriter string (fun ws v => ((String.length v, None), ws ++ v)).

Fixpoint contains (s sub : string) : bool :=
  prefix sub s || match s with String _ r => contains r sub | EmptyString => false end.

(** web/main_test.go TestHandler *)
Example test_web :
  let body := LF ++ TAB ++ "We can lemmatize plain prose, perhaps a technical job listing: " ++ LF ++ TAB ++ LF ++ TAB ++
    "We are looking for experienced Rails developers, with experience in HTML 5 and T-SQL." ++ LF ++ TAB ++ LF ++ TAB ++
    "Experience with ObjC and cpp and vue and React  Native is a plus." ++ LF ++ TAB in
  match jargonHandler U words_scan (fun _ => mkHP [] None) Tags null F (mkRequest "POST" "/text" (mkReader body None)) (@mkResponse null None [] "") with
  | Ret r => (Web.status r, contains (rws r) "ruby-on-rails", contains (rws r) "<span class=""lemma"">objective-c</span>")
  | _ => (0%N, false, false)
  end = (200%N, true, true).
Proof. vm_compute. reflexivity. Qed.

(** cmd/jargon/main_test.go TestInput; the modes are os.ModeCharDevice and os.ModeAppend *)
Definition test_fs : fsys :=
  mkFs (fun n => if seqb n "/tmp/in.txt" then Some 0 else None) (fun j => if Nat.eqb j 0 then "test input file" else "") 1
    (fun _ => None) (fun _ => None) (fun _ => None) (fun _ d => inl (Z.of_nat (String.length d))).
Definition mode_append : N := 1073741824.
Definition test_setInput (filein : string) (mode : N) :=
  let '(e, c) := setInput test_fs (new_config false false false) mode filein in
  (e, Pipedin c, match Filein c with Some _ => true | None => false end).
Example test_input :
  test_setInput "/tmp/in.txt" mode_char_device = (None, false, true) /\
  test_setInput "" mode_append = (None, true, false) /\
  test_setInput "" mode_char_device = (Some err_no_input, false, false) /\
  test_setInput "/tmp/in.txt" mode_append = (Some err_two_input, true, true) /\
  test_setInput "doesntexist" mode_append = (Some err_not_exist, false, false).
Proof. vm_compute. repeat split. Qed.

(** cmd/jargon/main_test.go TestFilters; filters are told apart as numbers: a filter [i] makes a stream of [i] tokens *)
Definition marked (i : nat) : Filter := fun _ => TokenizeString U words_scan (sconcat (repeat ". " i)).
Definition stems (lang : string) : Filter := marked (if seqb lang "english" then 1 else if seqb lang "spanish" then 2 else 3).
Definition test_setFilters (args : list string) (lang : string) :=
  let '(e, c) := setFilters (marked 10) (marked 11) (marked 12) stems (fun _ => true) "jargon" (new_config false false false) args lang in
  (match e with Some _ => true | None => false end,
   map (fun f : Filter => match Count F (f (marked 0 (TokenizeString U words_scan ""))) with Ret ((n, _), _) => n | _ => 0 end) (cFilters c)).
Example test_filters :
  test_setFilters ["-stack"; "-stem"; "-ascii"; "-contractions"] "" = (false, [24; 2; 20; 22]) /\
  test_setFilters ["-stem"] "spanish" = (false, [4]) /\
  test_setFilters ["-stem"] "foo" = (true, []).
Proof. vm_compute. repeat split. Qed.

(** cmd/jargon/main_test.go TestOutput *)
Definition test_setOutput (fileout : string) :=
  let '(e, c, _) := setOutput test_fs (new_config false false false) fileout in
  (e, Pipedout c, match Fileout c with Some _ => true | None => false end).
Example test_output :
  test_setOutput "testdata/out.txt" = (None, false, true) /\ test_setOutput "" = (None, true, false).
Proof. vm_compute. repeat split. Qed.

(** tokenizer_html_test.go TestTokenizeHTML *)
Definition test_page : hparser :=
  mkHP [ mkH StartTag (OtherAtom 1) "<html>"; mkH HText AtomZero LF; mkH StartTag (OtherAtom 2) "<p foo=""bar"">";
         mkH HText AtomZero (LF ++ "Hi! Let's talk Ruby on Rails." ++ LF);
         mkH Comment AtomZero "<!-- Ignore ASPNET MVC in comments -->"; mkH HText AtomZero LF;
         mkH StartTag Script "<script src=""foo"">"; mkH HText AtomZero "var Nodejs = Reactjs;"; mkH EndTag Script "</script>"; mkH HText AtomZero LF;
         mkH StartTag Style "<style>"; mkH HText AtomZero "p { margin-bottom:20px; } "; mkH EndTag Style "</style>"; mkH HText AtomZero LF;
         mkH EndTag (OtherAtom 2) "</p>"; mkH HText AtomZero LF; mkH EndTag (OtherAtom 1) "</html>"; mkH HText AtomZero LF ] None.
Example test_html :
  match strs (TokenizeHTML U words_scan test_page) with
  | Ret (got, None) => forallb (fun e => smem e got)
      ["<p foo=""bar"">"; "</p>"; LF; "Hi"; "!"; "Ruby"; "on"; "Rails"; "<!-- Ignore ASPNET MVC in comments -->"; "<script src=""foo"">";
       "var Nodejs = Reactjs;"; "</script>"; "<style>"; "p { margin-bottom:20px; } "; "</style>"]
  | _ => false
  end = true.
Proof. vm_compute. reflexivity. Qed.

(** filters/contractions/generate/main_test.go TestSanity, TestMappings *)
Example test_sanity : forallb (fun ke => match ke with (String a _, String b _) => Ascii.eqb a b | _ => false end) base_contractions = true.
Proof. vm_compute. reflexivity. Qed.
Example test_mappings :
  let n1 := length (filter (fun ke => contains (fst ke) "'") base_contractions) in
  let n2 := length (filter (fun ke => negb (contains (fst ke) "'")) base_contractions) in
  match getMappings U upper_ascii (fun _ _ => "re-added") base_contractions with
  | Ret (m, None) => Nat.eqb (length m) (3 * 2 * n1 + 3 * n2)
  | _ => false
  end = true.
Proof. vm_compute. reflexivity. Qed.

(** filters/twitter/filter_test.go (which expects nothing in particular) *)
Example test_twitter :
  strs (Handles U (tokenize "This is a @handle.")) = Ret (["This"; " "; "is"; " "; "a"; " "; "@handle"; "."], None).
Proof. vm_compute. reflexivity. Qed.

(** README.md:7 *)
Example readme_reactjs :
  map (fun s => strs (Tags (tokenize s))) ["react"; "React.js"; "React JS"; "REACTJS"] = repeat (Ret (["reactjs"], None)) 4.
Proof. vm_compute. reflexivity. Qed.

(** README.md:49-57, tokenstream_test.go ExampleTokenStream_Scan *)
Example readme_scan :
  str (Tags (tokenize "Let’s talk about Ruby on Rails and ASPNET MVC.")) = Ret ("Let’s talk about ruby-on-rails and asp.net-mvc.", None).
Proof. vm_compute. reflexivity. Qed.

(** README.md:74-83 *)
Example readme_filters :
  str (Tags (tokenize "Ruby on Rails")) = Ret ("ruby-on-rails", None) /\
  str (Tags (tokenize "ObjC")) = Ret ("objective-c", None) /\
  str (Contractions U words_scan contraction_mappings (tokenize "Couldn’t")) = Ret ("Could not", None) /\
  str (Fold U (tokenize "café")) = Ret ("cafe", None).
Proof. vm_compute. repeat split. Qed.

(** filters/contractions/README.md:7-9, 18.  (The file says that don't becomes "does not", and names a flag -cont that does not exist.) *)
Example readme_contractions :
  map (fun s => str (Contractions U words_scan contraction_mappings (tokenize s))) ["don't"; "We’ve"; "SHE'S"; "I would've called but he's away from his phone"]
  = map (fun s => Ret (s, None)) ["do not"; "We have"; "SHE IS"; "I would have called but he is away from his phone"] /\
  flag_Parse ["-cont"] = None.
Proof. vm_compute. split; reflexivity. Qed.

(** filters/twitter/README.md:7-8 *)
Example readme_twitter :
  strs (Handles U (Hashtags U (tokenize "see @somename, #sometag"))) = Ret (["see"; " "; "@somename"; ","; " "; "#sometag"], None).
Proof. vm_compute. reflexivity. Qed.
