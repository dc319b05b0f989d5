(** * CliSpec: vocabulary of the statements about the command line (C48 - C55, C59). *)

From Coq Require Import ZArith DecimalString.
From Verif Require Import Base Token Stream StreamSpec Tokenizer Html Cli.
Local Open Scope string_scope.

(** ** Outputs *)

(** io.Writer's contract; [acc] is the text accepted so far. *)
Definition accepts (w : writer) (acc : wstate w -> string) : Prop :=
  forall ws v n err ws', wwrite w ws v = ((n, err), ws') ->
    n <= String.length v /\ (err = None -> n = String.length v) /\ acc ws' = acc ws ++ substring 0 n v.

(** Some write was answered with error [e]. *)
Definition refuses (w : writer) (e : error) : Prop := exists ws v n ws', wwrite w ws v = ((n, Some e), ws').

(** The same for a target: standard output or a file. *)
Definition target_refuses (out : writer) (dk : disk) (t : target_of) (e : error) : Prop :=
  match t with
  | Stdout => refuses out e
  | OutFile i => exists d v n, dk i d v = Some (n, e)
  end.

(** [s] is the decimal numeral of [n], without superfluous zeros. *)
Definition decimal (n : nat) (s : string) : Prop :=
  exists u, NilZero.uint_of_string s = Some u /\ Nat.of_uint u = n /\ Decimal.unorm u = u.

(** What is printed for the tokens [l]. *)
Fixpoint listing (lines : bool) (l : list token) : string :=
  match l with
  | [] => ""
  | t :: r => tvalue t ++ (if lines then String "010" (listing lines r) else listing lines r)
  end.
Definition printed (count lines : bool) (l : list token) (s : string) : Prop :=
  if count then exists d, decimal (List.length l) d /\ s = d ++ String "010" ""
  else s = listing lines l.

(** The text in the target. *)
Definition written {out : writer} (acc : wstate out -> string) (t : target_of) (wo : world out) : string :=
  match t with Stdout => acc (stdout _ wo) | OutFile i => data (fs _ wo) i end.

(** Everything but the target is the same. *)
Definition only_target {out : writer} (t : target_of) (wo wo' : world out) : Prop :=
  stdin _ wo' = stdin _ wo /\ stdin_mode _ wo' = stdin_mode _ wo /\
  match t with
  | Stdout => fs _ wo' = fs _ wo
  | OutFile i => stdout _ wo' = stdout _ wo /\ names (fs _ wo') = names (fs _ wo) /\
      forall j, j <> i -> data (fs _ wo') j = data (fs _ wo) j
  end.

(** ** Inputs *)

(** Standard input is not a terminal: bit 21 of Go's fs.FileMode, ModeCharDevice. *)
Definition piped (mode : N) : Prop := N.testbit mode 21 = false.

(** The file can be opened. *)
Definition readable (f : fsys) (name : string) (i : nat) : Prop := noopen f name = None /\ names f name = Some i.

(** File numbers in use are below the next new one. *)
Definition well_formed_fs (f : fsys) : Prop := forall n i, names f n = Some i -> i < fresh f.

(** ** Filters *)

Section Filters.
Variable Fold Expand Tags : Filter.
Variable Stem : string -> Filter.

(** The filter an argument stands for. *)
Inductive stands_for (lang : string) : string -> Filter -> Prop :=
| SF_ascii : stands_for lang "-ascii" Fold
| SF_contractions : stands_for lang "-contractions" Expand
| SF_lemmas : stands_for lang "-lemmas" Lemmas
| SF_distinct : stands_for lang "-distinct" Distinct
| SF_stack : stands_for lang "-stack" Tags
| SF_stem : In lang ["english"; "french"; "norwegian"; "russian"; "spanish"; "swedish"] -> stands_for lang "-stem" (Stem lang)
| SF_stem_default : lang = "" -> stands_for lang "-stem" (Stem "english").

Definition filter_args : list string := ["-ascii"; "-contractions"; "-lemmas"; "-distinct"; "-stack"; "-stem"].

(** One filter per argument that stands for one, in order. *)
Inductive filters_of (lang : string) : list string -> list Filter -> Prop :=
| FO_nil : filters_of lang [] []
| FO_filter a f args fs : stands_for lang a f -> filters_of lang args fs -> filters_of lang (a :: args) (f :: fs)
| FO_other a args fs : ~ In a filter_args -> filters_of lang args fs -> filters_of lang (a :: args) fs.
End Filters.

(** The stemmer is asked for in a language there is none for. *)
Definition unknown_language (args : list string) (lang : string) : Prop :=
  In "-stem" args /\ lang <> "" /\ ~ In lang ["english"; "french"; "norwegian"; "russian"; "spanish"; "swedish"].

(** ** Flags *)

(** Where the flag package stops: at the end, at "--", at "-", at an argument without a dash. *)
Definition stops (args : list string) : Prop :=
  match args with
  | [] => True
  | a :: _ => a = "--" \/ a = "-" \/ forall r, a <> "-" ++ r
  end.

(** An argument list in plain form: the flags of filters are written with one dash and no value; no other argument (a value,
    or an argument after the flags) looks like one of them.  All other flags can have one dash or two, and a value.
    [set]: the flags with their values. *)
Inductive plain : list string -> list (string * fvalue) -> Prop :=
| Plain_end args : stops args -> (forall a, In a args -> ~ In a filter_args) -> plain args []
| Plain_bool n args set : In (n, KBool) formal -> plain args set -> plain (("-" ++ n) :: args) ((n, VBool true) :: set)
| Plain_bool2 n args set : In (n, KBool) formal -> ~ In ("-" ++ n) filter_args -> plain args set ->
    plain (("--" ++ n) :: args) ((n, VBool true) :: set)
| Plain_bool_value d n v b args set : d = "-" \/ d = "--" -> In (n, KBool) formal -> ~ In ("-" ++ n) filter_args ->
    ParseBool v = Some b -> plain args set -> plain ((d ++ n ++ "=" ++ v) :: args) ((n, VBool b) :: set)
| Plain_string d n v args set : d = "-" \/ d = "--" -> In (n, KString) formal -> ~ In v filter_args -> plain args set ->
    plain ((d ++ n) :: v :: args) ((n, VString v) :: set)
| Plain_string_value d n v args set : d = "-" \/ d = "--" -> In (n, KString) formal -> plain args set ->
    plain ((d ++ n ++ "=" ++ v) :: args) ((n, VString v) :: set).

(** The filter flags among them, in order. *)
Inductive flags_select (Fold Expand Tags : Filter) (Stem : string -> Filter) (lang : string)
  : list (string * fvalue) -> list Filter -> Prop :=
| FS_nil : flags_select Fold Expand Tags Stem lang [] []
| FS_filter n f set fs : stands_for Fold Expand Tags Stem lang ("-" ++ n) f -> flags_select Fold Expand Tags Stem lang set fs ->
    flags_select Fold Expand Tags Stem lang ((n, VBool true) :: set) (f :: fs)
| FS_other n v set fs : ~ In ("-" ++ n) filter_args -> flags_select Fold Expand Tags Stem lang set fs ->
    flags_select Fold Expand Tags Stem lang ((n, v) :: set) fs.

(** ** Running *)

(** The tokens of an input. *)
Definition input_tokens (U : Unicode.unicode) (scan : oracle) (parse : reader -> hparser) (html : bool) (r : reader) : TokenStream :=
  if html then TokenizeHTML U scan (parse r) else Tokenize U scan r.

(** [c] with the filters [fs] added. *)
Definition with_filters (c : config) (fs : list Filter) : config :=
  mkCfg (cHTML c) (cCount c) (cLines c) (cFilters c ++ fs) (Filein c) (Fileout c) (Pipedin c) (Pipedout c) (Reader c) (Writer c).

(** The invocation has exactly one input, and [r] is what reading it delivers. *)
Inductive one_input {out : writer} (wo : world out) (mode : N) (file : string) : reader -> Prop :=
| Input_pipe : file = "" -> piped mode -> one_input wo mode file (stdin _ wo)
| Input_file i z : file <> "" -> ~ piped mode -> readable (fs _ wo) file i -> stat (fs _ wo) i (data (fs _ wo) i) = inl z ->
    one_input wo mode file (mkReader (data (fs _ wo) i) (readerr (fs _ wo) i)).
