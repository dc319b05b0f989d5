(** * Property theorems C48 - C55, C59: the command line tool *)

From Coq Require Import ZArith.
From Verif Require Import Base Utf8 Unicode UnicodeData Token Stream StreamSpec Tokenizer Html Words WordsProofs Scanner Cli CliSpec
  CliProofs PropCliLemmas PropCliLemmas2.
Local Open Scope string_scope.

(* ------------------------------------------------------------------ *)
(** ** C48 *)

Theorem C48_exactly_one_input :
  forall (f : fsys) (c : config) (mode : N) (filein : string), Filein c = None ->
  (* a file and no pipe, a pipe and no file: accepted *)
  (forall i, filein <> "" -> readable f filein i -> ~ piped mode ->
     setInput f c mode filein = (None, mkCfg (cHTML c) (cCount c) (cLines c) (cFilters c) (Some i) (Fileout c) false (Pipedout c) (Reader c) (Writer c))) /\
  (filein = "" -> piped mode ->
     setInput f c mode filein = (None, mkCfg (cHTML c) (cCount c) (cLines c) (cFilters c) None (Fileout c) true (Pipedout c) (Reader c) (Writer c))) /\
  (* all other cases: an error *)
  (filein <> "" -> (forall i, ~ readable f filein i) -> exists e, fs_Open f filein = inr e /\ setInput f c mode filein = (Some e, c)) /\
  (filein = "" -> ~ piped mode -> exists c', setInput f c mode filein = (Some err_no_input, c')) /\
  (forall i, filein <> "" -> readable f filein i -> piped mode -> exists c', setInput f c mode filein = (Some err_two_input, c')).
Proof. exact C48_lemma. Qed.
Print Assumptions C48_exactly_one_input.

Example C48_example :
  let f := one_file "hello" in
  let run mode name := fst (setInput f (new_config false false false) mode name) in
  (run mode_char_device "x", run 0%N "", run mode_char_device "y", run mode_char_device "", run 0%N "x") =
  (None, None, Some err_not_exist, Some err_no_input, Some err_two_input).
Proof. vm_compute. reflexivity. Qed.

(* ------------------------------------------------------------------ *)
(** ** C49 *)

Theorem C49_filters_in_argument_order :
  forall (Fold Expand Tags : Filter) (Stem : string -> Filter) (isPrint : N -> bool) (prog : string) (args : list string) (lang : string) (c : config),
  (unknown_language args lang -> exists c', setFilters Fold Expand Tags Stem isPrint prog c args lang = (Some (err_lang isPrint prog lang), c')) /\
  (~ unknown_language args lang -> exists fs, filters_of Fold Expand Tags Stem lang args fs /\
     setFilters Fold Expand Tags Stem isPrint prog c args lang = (None, with_filters c fs)).
Proof. exact C49_lemma. Qed.
Print Assumptions C49_filters_in_argument_order.

Example C49_example_unknown : unknown_language ["-stack"; "-stem"] "klingon".
Proof.
  unfold unknown_language. split; [cbn; auto|]. split; [discriminate|]. cbn. intros H. repeat destruct H as [H|H]; try discriminate. exact H.
Qed.
Example C49_example Fold Expand Tags Stem :
  filters_of Fold Expand Tags Stem "french" ["-lemmas"; "x"; "-stem"; "-ascii"; "-lemmas"] [Lemmas; Stem "french"; Fold; Lemmas].
Proof.
  repeat (constructor; try constructor); cbn; auto; intros H; repeat destruct H as [H|H]; try discriminate; exact H.
Qed.

(* ------------------------------------------------------------------ *)
(** ** C50 *)

(** A filter is installed if, and only if, some filter flag is true: false. *)
Theorem C50_refuted :
  ~ (forall (Fold Expand Tags : Filter) (Stem : string -> Filter) (isPrint : N -> bool) (prog : string) (args : list string) (set : list (string * fvalue)) (lang : string) (c' : config),
     flag_Parse args = Some set ->
     setFilters Fold Expand Tags Stem isPrint prog (new_config false false false) args lang = (None, c') ->
     ((exists n, In ("-" ++ n) filter_args /\ get_bool n set = true) <-> cFilters c' <> [])).
Proof. exact C50_refute. Qed.
Print Assumptions C50_refuted.

(** The four ways it goes wrong. *)
Example C50_example_refuted :
  let run args := match flag_Parse args, setFilters (fun s => s) (fun s => s) (fun s => s) (fun _ s => s) (fun _ => true) "jargon" (new_config false false false) args "english" with
                  | Some set, (None, c) => Some (get_bool "stack" set, List.length (cFilters c))
                  | _, _ => None
                  end in
  run ["--stack"] = Some (true, 0) /\ run ["-stack=true"] = Some (true, 0) /\
  run ["-out"; "-stack"] = Some (false, 1) /\ run ["-stack"; "-stack=false"] = Some (false, 1).
Proof. vm_compute. auto. Qed.

(** Missing: flags of filters with two dashes or a value; other arguments that look like them. *)
Theorem C50_plain_flags_partial :
  forall (Fold Expand Tags : Filter) (Stem : string -> Filter) (isPrint : N -> bool) (prog : string) (args : list string) (set : list (string * fvalue)) (lang : string) (c : config),
  plain args set ->
  flag_Parse args = Some set /\
  (forall n, In ("-" ++ n) filter_args -> (get_bool n set = true <-> In ("-" ++ n) args)) /\
  (~ unknown_language args lang -> exists fs, flags_select Fold Expand Tags Stem lang set fs /\
     setFilters Fold Expand Tags Stem isPrint prog c args lang = (None, with_filters c fs)).
Proof. exact C50_plain. Qed.
Print Assumptions C50_plain_flags_partial.

Example C50_example : plain ["-stack"; "--file"; "x"; "-lines=T"; "-lang=english"; "more"]
  [("stack", VBool true); ("file", VString "x"); ("lines", VBool true); ("lang", VString "english")].
Proof.
  apply (Plain_bool "stack"); [cbn; auto 20|]. apply (Plain_string "--" "file"); [auto|cbn; auto 20|cbn; intuition discriminate|].
  apply (Plain_bool_value "-" "lines" "T"); [auto|cbn; auto 20|cbn; intuition discriminate|reflexivity|].
  apply (Plain_string_value "-" "lang" "english"); [auto|cbn; auto 20|]. apply Plain_end; [right; right; intros r; discriminate|].
  intros a [<-|[]]. cbn. intuition discriminate.
Qed.

(* ------------------------------------------------------------------ *)
(** ** C51 *)

Theorem C51_output_is_the_filtered_text :
  forall (U : unicode) (scan : oracle) (parse : reader -> hparser) (out : writer) (acc : wstate out -> string), accepts out acc ->
  forall (dk : disk) (direct : bool) (wo : world out) (c : config) (src : source_of) (n : Z) (tgt : target_of) (size : Z) (l : list token),
  Reader c = Some (src, n) -> Writer c = Some (tgt, size) -> (0 < size)%Z ->
  Yields (ApplyFilters (cFilters c) (input_tokens U scan parse (cHTML c) (reader_of out wo src))) l ->
  exists err wo' s, Returns (fun fuel => execute U scan parse out dk direct fuel wo c) (err, wo') /\ only_target tgt wo wo' /\
    printed (cCount c) (cLines c) l s /\
    match err with
    | None => written acc tgt wo' = written acc tgt wo ++ s
    | Some e => target_refuses out dk tgt e /\ exists x y, s = x ++ y /\ written acc tgt wo' = written acc tgt wo ++ x
    end.
Proof. exact C51_lemma. Qed.
Print Assumptions C51_output_is_the_filtered_text.

Example C51_example_sink : accepts sink (fun ws => ws).
Proof. exact sink_accepts. Qed.
(** With a buffer of two bytes. *)
Example C51_example :
  let wo := mkWorld sink no_files (mkReader "hello you" None) (inl 0%N) "" in
  let run count lines := match execute go_unicode words_scan no_html sink no_limit true 20 wo
                           (mkCfg false count lines [] None None true true (Some (Stdin, 65536%Z)) (Some (Stdout, 2%Z))) with
                         | Ret (e, wo') => Some (e, stdout _ wo')
                         | _ => None
                         end in
  run false false = Some (None, "hello you") /\ run false true = Some (None, "hello
 
you
") /\ run true false = Some (None, "3
").
Proof. vm_compute. auto. Qed.

(* ------------------------------------------------------------------ *)
(** ** C52 *)

(** What came before an input error has been written although no write failed: false. *)
Theorem C52_refuted :
  ~ (forall (U : unicode) (scan : oracle) (parse : reader -> hparser) (out : writer) (acc : wstate out -> string) (dk : disk) (direct : bool) (wo : world out)
       (c : config) (src : source_of) (n : Z) (tgt : target_of) (size : Z) (l : list token) (e : error), scanner_ok scan -> accepts out acc ->
     Reader c = Some (src, n) -> Writer c = Some (tgt, size) -> (0 < size)%Z -> cCount c = false ->
     Fails (ApplyFilters (cFilters c) (input_tokens U scan parse (cHTML c) (reader_of out wo src))) l e ->
     forall e' wo', Returns (fun fuel => execute U scan parse out dk direct fuel wo c) (e', wo') -> (forall e1, ~ target_refuses out dk tgt e1) ->
     written acc tgt wo' = written acc tgt wo ++ listing (cLines c) l).
Proof. exact C52_refute. Qed.
Print Assumptions C52_refuted.

(** Missing: the last part, at most what fits in the buffer. *)
Theorem C52_at_most_a_buffer_lost_partial :
  forall (U : unicode) (scan : oracle) (parse : reader -> hparser) (out : writer) (acc : wstate out -> string), accepts out acc ->
  forall (dk : disk) (direct : bool) (wo : world out) (c : config) (src : source_of) (n : Z) (tgt : target_of) (size : Z) (l : list token) (e : error),
  Reader c = Some (src, n) -> Writer c = Some (tgt, size) -> (0 < size)%Z ->
  Fails (ApplyFilters (cFilters c) (input_tokens U scan parse (cHTML c) (reader_of out wo src))) l e ->
  exists e' wo' x y, Returns (fun fuel => execute U scan parse out dk direct fuel wo c) (Some e', wo') /\ only_target tgt wo wo' /\
    (if cCount c then "" else listing (cLines c) l) = x ++ y /\ written acc tgt wo' = written acc tgt wo ++ x /\
    ((e' = e /\ String.length y <= Z.to_nat size) \/ (target_refuses out dk tgt e')).
Proof. exact C52_lemma. Qed.
Print Assumptions C52_at_most_a_buffer_lost_partial.

Example C52_example :
  let wo := mkWorld sink no_files (mkReader "hello you" (Some "read error")) (inl 0%N) "" in
  let run size := match execute go_unicode words_scan no_html sink no_limit true 20 wo
                    (mkCfg false false false [] None None true true (Some (Stdin, 65536%Z)) (Some (Stdout, size))) with
                  | Ret (e, wo') => Some (e, stdout _ wo')
                  | _ => None
                  end in
  run 65536%Z = Some (Some "read error", "") /\ run 4%Z = Some (Some "read error", "hello").
Proof. vm_compute. auto. Qed.

(* ------------------------------------------------------------------ *)
(** ** C53 *)

Theorem C53_invalid_invocations_change_nothing :
  forall (U : unicode) (scan : oracle) (parse : reader -> hparser) (Fold Expand Tags : Filter) (Stem : string -> Filter) (isPrint : N -> bool) (prog : string) (out : writer) (dk : disk) (direct : bool)
    (fuel : nat) (args : list string) (wo : world out),
  let main := main U scan parse Fold Expand Tags Stem isPrint prog out dk direct in
  (flag_Parse args = None -> main fuel args wo = Ret (BadFlags, wo)) /\
  (forall set, flag_Parse args = Some set ->
   let file := get_string "file" "" set in
   (forall e, stdin_mode _ wo = inr e -> exists x, main fuel args wo = Ret (x, wo) /\ x <> Done) /\
   (forall mode, stdin_mode _ wo = inl mode ->
      (file = "" /\ ~ piped mode) \/ (file <> "" /\ piped mode) \/ (file <> "" /\ forall i, ~ readable (fs _ wo) file i) \/
      unknown_language args (get_string "lang" "english" set) ->
      exists x, main fuel args wo = Ret (x, wo) /\ x <> Done)).
Proof. exact C53_lemma. Qed.
Print Assumptions C53_invalid_invocations_change_nothing.

(** What is reported in each case. *)
Theorem C53_what_is_reported :
  forall (U : unicode) (scan : oracle) (parse : reader -> hparser) (Fold Expand Tags : Filter) (Stem : string -> Filter) (isPrint : N -> bool) (prog : string) (out : writer) (dk : disk) (direct : bool)
    (fuel : nat) (args : list string) (wo : world out),
  let main := main U scan parse Fold Expand Tags Stem isPrint prog out dk direct in
  (flag_Parse args = None -> main fuel args wo = Ret (BadFlags, wo)) /\
  (forall set, flag_Parse args = Some set ->
   let file := get_string "file" "" set in let o := get_string "out" "" set in let lang := get_string "lang" "english" set in
   (get_bool "version" set = true -> main fuel args wo = Ret (Version, wo)) /\
   (get_bool "version" set = false ->
    (forall e, stdin_mode _ wo = inr e -> main fuel args wo = Ret (Failed e, wo)) /\
    (forall mode, stdin_mode _ wo = inl mode ->
     (file = "" -> ~ piped mode -> main fuel args wo = Ret (Usage, wo)) /\
     (forall e, file <> "" -> fs_Open (fs _ wo) file = inr e -> e <> err_no_input -> main fuel args wo = Ret (Failed e, wo)) /\
     (forall i, file <> "" -> readable (fs _ wo) file i -> piped mode -> main fuel args wo = Ret (Failed err_two_input, wo)) /\
     (forall r, one_input wo mode file r ->
       (unknown_language args lang -> main fuel args wo = Ret (Failed (err_lang isPrint prog lang), wo)) /\
       (forall e, ~ unknown_language args lang -> o <> "" -> nocreate (fs _ wo) o = Some e -> main fuel args wo = Ret (Failed e, wo)))))).
Proof. exact C53_reported_lemma. Qed.
Print Assumptions C53_what_is_reported.

Example C53_example :
  let run args mode := match main go_unicode words_scan no_html (fun s => s) (fun s => s) (fun s => s) (fun _ s => s) (fun _ => true) "jargon" sink no_limit true 30 args
                               (mkWorld sink (one_file "hello") (mkReader "you" None) (inl mode) "") with
                       | Ret (x, wo) => Some (x, data (fs _ wo) 0, stdout _ wo)
                       | _ => None
                       end in
  run ["-out"; "x"] mode_char_device = Some (Usage, "hello", "") /\
  run ["-out"; "x"; "-file"; "x"] 0%N = Some (Failed err_two_input, "hello", "") /\
  run ["-out"; "x"; "-file"; "y"] mode_char_device = Some (Failed err_not_exist, "hello", "") /\
  run ["-out"; "x"; "-stem"; "-lang"; "klingon"] 0%N = Some (Failed (err_lang (fun _ => true) "jargon" "klingon"), "hello", "") /\
  run ["-out"; "x"] 0%N = Some (Done, "you", "").
Proof. vm_compute. auto 8. Qed.

(* ------------------------------------------------------------------ *)
(** ** C54 *)

(** The input file keeps its contents: false. *)
Theorem C54_refuted :
  ~ (forall (U : unicode) (scan : oracle) (parse : reader -> hparser) (Fold Expand Tags : Filter) (Stem : string -> Filter) (isPrint : N -> bool) (prog : string) (out : writer) (dk : disk) (direct : bool)
       (fuel : nat) (args : list string) (set : list (string * fvalue)) (wo : world out) (x : exit) (wo' : world out) (i : nat),
     flag_Parse args = Some set -> readable (fs out wo) (get_string "file" "" set) i ->
     main U scan parse Fold Expand Tags Stem isPrint prog out dk direct fuel args wo = Ret (x, wo') -> data (fs out wo') i = data (fs out wo) i).
Proof. exact C54_refute. Qed.
Print Assumptions C54_refuted.

(** Missing: the file named as output (if the name is new, the file that is created). *)
Theorem C54_other_files_keep_their_contents_partial :
  forall (U : unicode) (scan : oracle) (parse : reader -> hparser) (Fold Expand Tags : Filter) (Stem : string -> Filter) (isPrint : N -> bool) (prog : string) (out : writer) (dk : disk) (direct : bool)
    (fuel : nat) (args : list string) (set : list (string * fvalue)) (wo : world out) (x : exit) (wo' : world out),
  flag_Parse args = Some set -> main U scan parse Fold Expand Tags Stem isPrint prog out dk direct fuel args wo = Ret (x, wo') ->
  forall j, (get_string "out" "" set <> "" -> names (fs _ wo) (get_string "out" "" set) <> Some j /\
                                               (names (fs _ wo) (get_string "out" "" set) = None -> j <> fresh (fs _ wo))) ->
  data (fs _ wo') j = data (fs _ wo) j.
Proof. exact C54_lemma. Qed.
Print Assumptions C54_other_files_keep_their_contents_partial.

Example C54_example :
  let run args := match main go_unicode words_scan no_html (fun s => s) (fun s => s) (fun s => s) (fun _ s => s) (fun _ => true) "jargon" sink no_limit true 30 args
                               (mkWorld sink (one_file "hello") (mkReader "" None) (inl mode_char_device) "") with
                  | Ret (x, wo) => Some (x, data (fs _ wo) 0, data (fs _ wo) 1)
                  | _ => None
                  end in
  run ["-file"; "x"; "-out"; "y"] = Some (Done, "hello", "hello") /\ run ["-file"; "x"; "-out"; "x"] = Some (Done, "", "").
Proof. vm_compute. auto. Qed.

(* ------------------------------------------------------------------ *)
(** ** C55 *)

Theorem C55_reader_and_writer_configured :
  forall (Fold Expand Tags : Filter) (Stem : string -> Filter) (isPrint : N -> bool) (prog : string) (f : fsys) (html count lines : bool) (mode : N) (file : string) (args : list string)
    (lang o : string) (c1 c2 c3 : config) (f' : fsys),
  setInput f (new_config html count lines) mode file = (None, c1) ->
  setFilters Fold Expand Tags Stem isPrint prog c1 args lang = (None, c2) ->
  setOutput f c2 o = (None, c3, f') ->
  (* Stat fails *)
  (exists e c4 i, setReader f' c3 = (Some e, c4) /\ Filein c1 = Some i /\ stat f' i (data f' i) = inr e) \/
  (exists c4 c5 src tgt n, setReader f' c3 = (None, c4) /\ setWriter c4 = (None, c5) /\
     Reader c5 = Some (src, n) /\ Writer c5 = Some (tgt, n) /\ (4096 <= n <= 1048576)%Z /\
     ((file = "" /\ src = Stdin) \/ (file <> "" /\ exists i, readable f file i /\ src = InFile i)) /\
     ((o = "" /\ tgt = Stdout /\ f' = f) \/ (o <> "" /\ exists i, tgt = OutFile i /\ fs_Create f o = (inl i, f'))) /\
     cHTML c5 = html /\ cCount c5 = count /\ cLines c5 = lines /\ filters_of Fold Expand Tags Stem lang args (cFilters c5)).
Proof. exact C55_lemma. Qed.
Print Assumptions C55_reader_and_writer_configured.

Example C55_example :
  let f z := mkFs (fun n => if seqb n "x" then Some 0 else None) (fun _ => "") 1 (fun _ => None) (fun _ => None) (fun _ => None) (fun _ _ => inl z) in
  let run z := let '(_, c1) := setInput (f z) (new_config false false false) mode_char_device "x" in
               let '(_, c2, f') := setOutput (f z) c1 "y" in
               let '(_, c3) := setReader f' c2 in let '(_, c4) := setWriter c3 in (Reader c4, Writer c4) in
  (run 0%Z, run 5000%Z, run 99999999%Z) =
  ((Some (InFile 0, 4096%Z), Some (OutFile 1, 4096%Z)), (Some (InFile 0, 5000%Z), Some (OutFile 1, 5000%Z)),
   (Some (InFile 0, 1048576%Z), Some (OutFile 1, 1048576%Z))).
Proof. vm_compute. reflexivity. Qed.

(* ------------------------------------------------------------------ *)
(** ** C59 *)

Theorem C59_end_to_end :
  forall (U : unicode) (scan : oracle) (parse : reader -> hparser) (Fold Expand Tags : Filter) (Stem : string -> Filter) (isPrint : N -> bool) (prog : string) (out : writer) (dk : disk) (direct : bool)
    (acc : wstate out -> string), accepts out acc ->
  forall (args : list string) (set : list (string * fvalue)) (wo : world out) (mode : N) (file o : string) (r : reader) (l : list token) (fl : list Filter),
  flag_Parse args = Some set -> get_bool "version" set = false -> stdin_mode _ wo = inl mode ->
  file = get_string "file" "" set -> o = get_string "out" "" set -> one_input wo mode file r ->
  ~ unknown_language args (get_string "lang" "english" set) ->
  filters_of Fold Expand Tags Stem (get_string "lang" "english" set) args fl ->
  well_formed_fs (fs _ wo) -> (o <> "" -> nocreate (fs _ wo) o = None /\ (file <> "" -> names (fs _ wo) o <> names (fs _ wo) file)) ->
  Yields (ApplyFilters fl (input_tokens U scan parse (get_bool "html" set) r)) l ->
  exists x wo' s, Returns (fun fuel => main U scan parse Fold Expand Tags Stem isPrint prog out dk direct fuel args wo) (x, wo') /\
    printed (get_bool "count" set) (get_bool "lines" set) l s /\
    ((x = Done /\ o = "" /\ acc (stdout _ wo') = acc (stdout _ wo) ++ s /\ fs _ wo' = fs _ wo) \/
     (exists e x1 y, x = Failed e /\ o = "" /\ refuses out e /\ s = x1 ++ y /\ acc (stdout _ wo') = acc (stdout _ wo) ++ x1 /\ fs _ wo' = fs _ wo) \/
     (exists j, x = Done /\ o <> "" /\ names (fs _ wo') o = Some j /\ data (fs _ wo') j = s /\ stdout _ wo' = stdout _ wo) \/
     (exists e j x1 y, x = Failed e /\ o <> "" /\ target_refuses out dk (OutFile j) e /\ names (fs _ wo') o = Some j /\ s = x1 ++ y /\
        data (fs _ wo') j = x1 /\ stdout _ wo' = stdout _ wo)).
Proof. exact C59_lemma. Qed.
Print Assumptions C59_end_to_end.

Example C59_example_input : one_input (out := sink) (mkWorld sink (one_file "hello") (mkReader "" None) (inl mode_char_device) "") mode_char_device "x" (mkReader "hello" None).
Proof. apply (Input_file (mkWorld sink (one_file "hello") (mkReader "" None) (inl mode_char_device) "") mode_char_device "x" 0 5%Z); [discriminate|discriminate|split; reflexivity|reflexivity]. Qed.
Example C59_example_fs : well_formed_fs (one_file "hello").
Proof. intros n i. cbn. destruct (seqb n "x"); [intros E; injection E as <-; lia|discriminate]. Qed.
Example C59_example :
  match main go_unicode words_scan no_html (fun s => s) (fun s => s) (fun s => s) (fun _ s => s) (fun _ => true) "jargon" sink no_limit true 30 ["-file"; "x"; "-lines"; "-distinct"]
             (mkWorld sink (one_file "you, you") (mkReader "" None) (inl mode_char_device) "> ") with
  | Ret (x, wo) => Some (x, stdout _ wo)
  | _ => None
  end = Some (Done, "> you
,
 
").
Proof. vm_compute. reflexivity. Qed.

(** A disk on which a file can have at most six bytes: the failure is reported. *)
Example C59_example_full_disk :
  let dk : disk := fun _ d v => if Nat.ltb 6 (String.length d + String.length v) then Some (6 - String.length d, "no space left on device") else None in
  match main go_unicode words_scan no_html (fun s => s) (fun s => s) (fun s => s) (fun _ s => s) (fun _ => true) "jargon" sink dk true 30 ["-file"; "x"; "-out"; "y"]
             (mkWorld sink (one_file "you, you") (mkReader "" None) (inl mode_char_device) "> ") with
  | Ret (x, wo) => Some (x, stdout _ wo, names (fs _ wo) "y", data (fs _ wo) 1)
  | _ => None
  end = Some (Failed "no space left on device", "> ", Some 1, "you, y").
Proof. vm_compute. reflexivity. Qed.
