(** * Property theorems C85: exit status and standard error *)

From Coq Require Import ZArith.
From Verif Require Import Base Utf8 Unicode UnicodeData Token Stream StreamSpec Tokenizer Html Words Scanner Render RenderSpec Cli CliSpec
  Process ProcessSpec PropCliLemmas2 PropProcessLemmas.
Local Open Scope string_scope.

(** C85 is false: the usage is printed as a message although the status is 0, and -version does not notice when it cannot print. *)
Theorem C85_refuted :
  ~ (forall U scan parse Fold Expand Tags Stem isPrint prog version commit date defaults flag_exit out dk direct fuel args wo e,
     flag_Parse args <> None ->
     process U scan parse Fold Expand Tags Stem isPrint prog version commit date defaults flag_exit out dk direct fuel args wo = Ret e ->
     (status _ e = 0 <-> stderr _ e = "")) /\
  ~ (forall U scan parse Fold Expand Tags Stem isPrint prog version commit date defaults flag_exit out acc dk direct fuel args set wo e, accepts out acc ->
     flag_Parse args = Some set -> get_bool "version" set = true ->
     process U scan parse Fold Expand Tags Stem isPrint prog version commit date defaults flag_exit out dk direct fuel args wo = Ret e ->
     status _ e = 0 -> acc (stdout _ (after _ e)) <> acc (stdout _ wo)).
Proof. exact C85_refute. Qed.
Print Assumptions C85_refuted.

(** Whenever the flags can be parsed, the status is 1 and there is a message, or it is 0 and there is none but the usage. *)
Theorem C85_status_partial :
  forall (U : unicode) (scan : oracle) (parse : reader -> hparser) (Fold Expand Tags : Filter) (Stem : string -> Filter) (isPrint : N -> bool)
    (prog version commit date defaults : string) (flag_exit : list string -> nat * string) (out : writer) (dk : disk) (direct : bool),
  let process := process U scan parse Fold Expand Tags Stem isPrint prog version commit date defaults flag_exit out dk direct in
  forall (fuel : nat) (args : list string) (wo : world out) (e : ended out), flag_Parse args <> None -> process fuel args wo = Ret e ->
  (status _ e = 1 /\ exists m, message m (stderr _ e)) \/ (status _ e = 0 /\ (stderr _ e = "" \/ stderr _ e = usage_text prog defaults)).
Proof. exact C85_status_lemma. Qed.
Print Assumptions C85_status_partial.

(** A valid command line whose input can be read: status 0 and the whole output without a message, or status 1, the message
    with which the output refused to take more, and the beginning of the output. *)
Theorem C85_complete_partial :
  forall (U : unicode) (scan : oracle) (parse : reader -> hparser) (Fold Expand Tags : Filter) (Stem : string -> Filter) (isPrint : N -> bool)
    (prog version commit date defaults : string) (flag_exit : list string -> nat * string) (out : writer) (dk : disk) (direct : bool),
  let process := process U scan parse Fold Expand Tags Stem isPrint prog version commit date defaults flag_exit out dk direct in
  forall (acc : wstate out -> string), accepts out acc ->
  forall (args : list string) (set : list (string * fvalue)) (wo : world out) (r : reader) (o : string) (fl : list Filter) (l : list token),
  valid Fold Expand Tags Stem args set wo r o fl ->
  Yields (ApplyFilters fl (input_tokens U scan parse (get_bool "html" set) r)) l ->
  exists e s, Returns (fun fuel => process fuel args wo) e /\ printed (get_bool "count" set) (get_bool "lines" set) l s /\
    ((status _ e = 0 /\ stderr _ e = "" /\ has_got acc o wo (after _ e) s) \/
     (status _ e = 1 /\ exists m x y, message m (stderr _ e) /\ output_refuses dk o (after _ e) m /\ s = x ++ y /\ has_got acc o wo (after _ e) x)).
Proof. exact C85_success. Qed.
Print Assumptions C85_complete_partial.

(** One whose input cannot be read to the end: status 1 and the message of the input, with all output but at most a megabyte, or
    that of the output. *)
Theorem C85_incomplete_partial :
  forall (U : unicode) (scan : oracle) (parse : reader -> hparser) (Fold Expand Tags : Filter) (Stem : string -> Filter) (isPrint : N -> bool)
    (prog version commit date defaults : string) (flag_exit : list string -> nat * string) (out : writer) (dk : disk) (direct : bool),
  let process := process U scan parse Fold Expand Tags Stem isPrint prog version commit date defaults flag_exit out dk direct in
  forall (acc : wstate out -> string), accepts out acc ->
  forall (args : list string) (set : list (string * fvalue)) (wo : world out) (r : reader) (o : string) (fl : list Filter) (l : list token) (e0 : error),
  valid Fold Expand Tags Stem args set wo r o fl ->
  Fails (ApplyFilters fl (input_tokens U scan parse (get_bool "html" set) r)) l e0 ->
  exists e m x y, Returns (fun fuel => process fuel args wo) e /\ status _ e = 1 /\ message m (stderr _ e) /\
    (if get_bool "count" set then "" else listing (get_bool "lines" set) l) = x ++ y /\ has_got acc o wo (after _ e) x /\
    ((m = e0 /\ (Z.of_nat (String.length y) <= 1048576)%Z) \/ output_refuses dk o (after _ e) m).
Proof. exact C85_failure. Qed.
Print Assumptions C85_incomplete_partial.

(** Command lines that are not valid: what is printed, and nothing is changed. *)
Theorem C85_invalid_partial :
  forall (U : unicode) (scan : oracle) (parse : reader -> hparser) (Fold Expand Tags : Filter) (Stem : string -> Filter) (isPrint : N -> bool)
    (prog version commit date defaults : string) (flag_exit : list string -> nat * string) (out : writer) (dk : disk) (direct : bool),
  let process := process U scan parse Fold Expand Tags Stem isPrint prog version commit date defaults flag_exit out dk direct in
  forall (args : list string) (set : list (string * fvalue)) (wo : world out), flag_Parse args = Some set -> get_bool "version" set = false ->
  let file := get_string "file" "" set in let o := get_string "out" "" set in let lang := get_string "lang" "english" set in
  let ends n s := Returns (fun fuel => process fuel args wo) (mkEnded out n s wo) in
  (forall e, stdin_mode _ wo = inr e -> exists s, ends 1 s /\ message e s) /\
  (forall mode, stdin_mode _ wo = inl mode ->
   (file = "" -> ~ piped mode -> ends 0 (usage_text prog defaults)) /\
   (forall e, file <> "" -> fs_Open (fs _ wo) file = inr e -> e <> err_no_input -> exists s, ends 1 s /\ message e s) /\
   (forall i, file <> "" -> readable (fs _ wo) file i -> piped mode ->
     exists s, ends 1 s /\ message "choose *either* an input -file argument *or* piped input" s) /\
   (forall r, one_input wo mode file r ->
     (unknown_language args lang -> exists s, ends 1 s /\
        message ("lang " ++ Quote isPrint lang ++ " is not known by " ++ prog ++ "; options are english, french, norwegian, russian, spanish, swedish") s) /\
     (forall e, ~ unknown_language args lang -> o <> "" -> nocreate (fs _ wo) o = Some e -> exists s, ends 1 s /\ message e s))).
Proof. exact C85_invalid_lemma. Qed.
Print Assumptions C85_invalid_partial.

(** -version prints three lines on an output that takes them, whatever the other flags; no file is touched. *)
Theorem C85_version_partial :
  forall (U : unicode) (scan : oracle) (parse : reader -> hparser) (Fold Expand Tags : Filter) (Stem : string -> Filter) (isPrint : N -> bool)
    (prog version commit date defaults : string) (flag_exit : list string -> nat * string) (out : writer) (dk : disk) (direct : bool),
  let process := process U scan parse Fold Expand Tags Stem isPrint prog version commit date defaults flag_exit out dk direct in
  forall (acc : wstate out -> string), accepts out acc ->
  forall (args : list string) (set : list (string * fvalue)) (wo : world out), flag_Parse args = Some set -> get_bool "version" set = true ->
  exists e, Returns (fun fuel => process fuel args wo) e /\ status _ e = 0 /\ stderr _ e = "" /\ fs _ (after _ e) = fs _ wo /\
    ((forall m, ~ refuses out m) ->
     acc (stdout _ (after _ e)) = acc (stdout _ wo) ++ "Version: " ++ version ++ String LF ("Commit: " ++ commit ++ String LF ("Build date: " ++ date ++ String LF ""))).
Proof. exact C85_version. Qed.
Print Assumptions C85_version_partial.

(** The message about an unknown language is one line, whatever was given as language. *)
Theorem C85_language_message :
  forall (isPrint : N -> bool) (prog lang : string), print_ok isPrint -> one_line prog -> one_line (err_lang isPrint prog lang).
Proof. exact err_lang_line. Qed.
Print Assumptions C85_language_message.

(** Standard input is a terminal, or contains "you"; the program is called jargon. *)
Example C85_example :
  let run args mode := match jargon 30 args (mkWorld sink (one_file "hello") (mkReader "you" None) (inl mode) "> ") with
                       | Ret e => Some (status _ e, stderr _ e, stdout _ (after _ e), data (fs _ (after _ e)) 0)
                       | _ => None
                       end in
  run ["-lines"] 0%N = Some (0, "", "> you
", "hello") /\
  run ["-version"; "-out"; "x"] 0%N = Some (0, "", "> Version: 1.0
Commit: abc
Build date: today
", "hello") /\
  run ["-stem"; "-lang"; "klin
gon"] 0%N = Some (1, "lang ""klin\ngon"" is not known by jargon; options are english, french, norwegian, russian, spanish, swedish
", "> ", "hello") /\
  run ["-file"; "x"] 0%N = Some (1, "choose *either* an input -file argument *or* piped input
", "> ", "hello") /\
  run ["-out"; "x"] mode_char_device = Some (0, "jargon takes text from std input and processes it with one or more filters.

Example:

  curl -s https://en.wikipedia.org/wiki/Computer_programming | jargon -html -stack -lemmas -lines

Flags:

defaults", "> ", "hello").
Proof. vm_compute. repeat split; reflexivity. Qed.

(** With an input that breaks off; the buffer is larger than the text, which is lost. *)
Example C85_example_failing :
  match jargon 30 [] (mkWorld sink no_files (mkReader "hello you" (Some "read error")) (inl 0%N) "") with
  | Ret e => Some (status _ e, stderr _ e, stdout _ (after _ e))
  | _ => None
  end = Some (1, "read error
", "").
Proof. vm_compute. reflexivity. Qed.

(** A command line that is valid. *)
Example C85_example_valid :
  valid (out := sink) (fun s => s) (fun s => s) (fun s => s) (fun _ s => s) ["-file"; "x"; "-distinct"; "-out"; "y"]
    [("file", VString "x"); ("distinct", VBool true); ("out", VString "y")]
    (mkWorld sink (one_file "hello") (mkReader "" None) (inl mode_char_device) "") (mkReader "hello" None) "y" [Distinct].
Proof.
  split; [reflexivity|]. split; [reflexivity|]. split; [reflexivity|].
  split. { intros n i. cbn. destruct (seqb n "x"); [intros E; injection E as <-; auto|discriminate]. }
  split. { exists mode_char_device. split; [reflexivity|].
    apply (Input_file (mkWorld sink (one_file "hello") (mkReader "" None) (inl mode_char_device) "") mode_char_device "x" 0 5%Z); [discriminate|discriminate|split; reflexivity|reflexivity]. }
  split. { intros (H & _). cbn in H. intuition discriminate. }
  split. { apply FO_other; [cbn; intuition discriminate|]. apply FO_other; [cbn; intuition discriminate|]. apply FO_filter; [constructor|].
    apply FO_other; [cbn; intuition discriminate|]. apply FO_other; [cbn; intuition discriminate|]. constructor. }
  intros _. split; [reflexivity|]. intros _. discriminate.
Qed.
