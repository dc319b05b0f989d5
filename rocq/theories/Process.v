(** * Process: what is seen of /repo/cmd/jargon/main.go from outside: exit status, standard error, and the texts of -version and
    of the usage.

    Cli.main tells how the program ends; here this is made into what it prints and returns.  Simplified: everything written to
    standard error arrives. *)

From Coq Require Import ZArith.
From Verif Require Import Base Unicode Token Stream Tokenizer Html Scanner Cli.
Local Open Scope string_scope.

Section Process.
Variable U : unicode.
Variable scan : oracle.
Variable parse : reader -> hparser.
Variable Fold Expand Tags : Filter.
Variable Stem : string -> Filter.
Variable isPrint : N -> bool.
(** flag.CommandLine.Name() *)
Variable prog : string.
(** main.go:19, set by the linker *)
Variable version commit date : string.
(** The flag package: what flag.PrintDefaults prints, and exit status and message for flags that cannot be parsed or -help. *)
Variable defaults : string.
Variable flag_exit : list string -> nat * string.
Variable out : writer.
Variable dk : disk.
Variable direct : bool.

Definition lf : string := String newline "".

(** fmt.Println: one Write to standard output; the error is not looked at. *)
Definition Println (ws : wstate out) (s : string) : wstate out := snd (wwrite out ws (s ++ lf)).

(** main.go:52-57 *)
Definition print_version (ws : wstate out) : wstate out :=
  let ws := Println ws ("Version: " ++ version) in
  let ws := Println ws ("Commit: " ++ commit) in
  Println ws ("Build date: " ++ date).

(** main.go:135-141 printUsage *)
Definition usage : string :=
  (prog ++ " takes text from std input and processes it with one or more filters." ++ lf ++ lf) ++
  ("Example:" ++ lf ++ lf ++ "  curl -s https://en.wikipedia.org/wiki/Computer_programming | jargon -html -stack -lemmas -lines" ++ lf ++ lf) ++
  ("Flags:" ++ lf ++ lf) ++ defaults.

(** How the process ends. *)
Record ended := mkEnded { status : nat; stderr : string; after : world out }.

(** main.go:21-115; [check] is 23-29 *)
Definition process (fuel : nat) (args : list string) (wo : world out) : outcome ended :=
  do (x, wo') <- main U scan parse Fold Expand Tags Stem isPrint prog out dk direct fuel args wo;
  Ret match x with
      | Done => mkEnded 0 "" wo'
      | Usage => mkEnded 0 usage wo'
      | Version => mkEnded 0 "" (mkWorld out (fs _ wo') (stdin _ wo') (stdin_mode _ wo') (print_version (stdout _ wo')))
      | BadFlags => let '(n, s) := flag_exit args in mkEnded n s wo'
      | Failed e => mkEnded 1 (e ++ lf) wo'
      end.
End Process.
