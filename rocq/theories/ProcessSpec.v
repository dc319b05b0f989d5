(** * ProcessSpec: vocabulary of C85. *)

From Coq Require Import ZArith.
From Verif Require Import Base Token Stream StreamSpec Tokenizer Cli CliSpec.
Local Open Scope string_scope.

Definition LF : ascii := "010"%char.

(** [s] is the message [m] on a line of its own. *)
Definition message (m s : string) : Prop := s = m ++ String LF "".

(** The output named by -out (or, without one, standard output) has got [s], and nothing else has changed. *)
Definition has_got {out : writer} (acc : wstate out -> string) (o : string) (wo wo' : world out) (s : string) : Prop :=
  (o = "" /\ acc (stdout _ wo') = acc (stdout _ wo) ++ s /\ fs _ wo' = fs _ wo) \/
  (o <> "" /\ stdout _ wo' = stdout _ wo /\ exists j, names (fs _ wo') o = Some j /\ data (fs _ wo') j = s).

(** The output refused to take some text, with error [e]. *)
Definition output_refuses {out : writer} (dk : disk) (o : string) (wo' : world out) (e : error) : Prop :=
  (o = "" /\ refuses out e) \/
  (o <> "" /\ exists j d v n, names (fs _ wo') o = Some j /\ dk j d v = Some (n, e)).

(** A command line that can be executed: [r] the input, [o] the name of the output, [fl] the filters. *)
Definition valid (Fold Expand Tags : Filter) (Stem : string -> Filter) {out : writer} (args : list string) (set : list (string * fvalue))
  (wo : world out) (r : reader) (o : string) (fl : list Filter) : Prop :=
  flag_Parse args = Some set /\ get_bool "version" set = false /\ o = get_string "out" "" set /\ well_formed_fs (fs _ wo) /\
  (exists mode, stdin_mode _ wo = inl mode /\ one_input wo mode (get_string "file" "" set) r) /\
  ~ unknown_language args (get_string "lang" "english" set) /\
  filters_of Fold Expand Tags Stem (get_string "lang" "english" set) args fl /\
  (o <> "" -> nocreate (fs _ wo) o = None /\ (get_string "file" "" set <> "" -> names (fs _ wo) o <> names (fs _ wo) (get_string "file" "" set))).

(** No character of the text is a line feed. *)
Fixpoint one_line (s : string) : Prop :=
  match s with
  | EmptyString => True
  | String c r => c <> LF /\ one_line r
  end.

(** The usage; [defaults] is what the flag package says about the flags. *)
Definition usage_text (prog defaults : string) : string :=
  prog ++ " takes text from std input and processes it with one or more filters.

Example:

  curl -s https://en.wikipedia.org/wiki/Computer_programming | jargon -html -stack -lemmas -lines

Flags:

" ++ defaults.
