(** * PipeSpec: the command between pipes (C99). *)

From Coq Require Import ZArith.
From Verif Require Import Base Utf8 Unicode UnicodeData Token Stream StreamSpec Tokenizer Words Html Filters Ascii Synonyms ContractionsTable
  FilterSpec SynSpec ChainSpec Cli CliSpec Process ProcessSpec.
Local Open Scope string_scope.

(** The command with what it is compiled with: the stemmers (which do not erase words), the filter of stackoverflow.Tags (that of some mapping), the parser of HTML,
    and the texts of messages. *)
Record command := mkCommand {
  parse : reader -> hparser;
  stemmer : string -> string -> bool -> string;
  stemmer_ok : forall lang v, stemmer lang v true = "" -> v = "";
  tags : built;
  tags_ok : exists ms ic ig, built_from go_unicode words_scan ms ic ig tags;
  isPrint : N -> bool;
  texts : string * string * string * string * string;
  flag_exit : list string -> nat * string
}.

Definition run (c : command) (out : writer) (dk : disk) (direct : bool) : nat -> list string -> world out -> outcome (ended out) :=
  let '(prog, version, commit, date, defaults) := texts c in
  process go_unicode words_scan (parse c) (Fold go_unicode) (Contractions go_unicode words_scan contraction_mappings) (SynFilter go_unicode None (tags c))
    (fun lang => Stemmer go_unicode (stemmer c lang)) (isPrint c) prog version commit date defaults (flag_exit c) out dk direct.

(** With [s] on its standard input, from a pipe, and arguments [args], the command writes [x] on its standard output and ends with status 0, without a message
    and without touching a file; on every output that takes all text. *)
Definition prints (c : command) (args : list string) (s x : string) : Prop :=
  forall (out : writer) (acc : wstate out -> string) (dk : disk) (direct : bool) (wo : world out) (mode : N),
  accepts out acc -> (forall e, ~ refuses out e) -> well_formed_fs (fs _ wo) ->
  stdin _ wo = mkReader s None -> stdin_mode _ wo = inl mode -> piped mode ->
  exists e, Returns (fun fuel => run c out dk direct fuel args wo) e /\ status _ e = 0 /\ stderr _ e = "" /\
    acc (stdout _ (after _ e)) = acc (stdout _ wo) ++ x /\ fs _ (after _ e) = fs _ wo.

(** What [jargon a | jargon b] prints for [s]. *)
Definition piped_through (c : command) (a b : list string) (s x : string) : Prop :=
  exists m, prints c a s m /\ prints c b m x.

(** Arguments with which the command reads plain text from standard input and writes to standard output. *)
Definition text_command (args : list string) : Prop :=
  exists set, flag_Parse args = Some set /\ get_bool "version" set = false /\ get_bool "html" set = false /\ get_string "file" "" set = "" /\
    get_string "out" "" set = "" /\ ~ unknown_language args (get_string "lang" "english" set).

(** The flags of filters other than stemmers. *)
Definition plain_flags : list string := ["-ascii"; "-contractions"; "-lemmas"; "-distinct"; "-stack"].
Definition filter_of_flag (c : command) (a : string) : Filter :=
  if seqb a "-ascii" then Fold go_unicode
  else if seqb a "-contractions" then Contractions go_unicode words_scan contraction_mappings
  else if seqb a "-lemmas" then Lemmas
  else if seqb a "-distinct" then Distinct
  else SynFilter go_unicode None (tags c).
