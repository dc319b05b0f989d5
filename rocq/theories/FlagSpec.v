(** * FlagSpec: the syntax of the command line, from the documentation of package flag. *)

From Verif Require Import Base Cli.
Local Open Scope string_scope.

(** The flags without and with an argument (main.go:35-48). *)
Definition switches : list string :=
  ["stack"; "contractions"; "ascii"; "stem"; "html"; "lemmas"; "count"; "lines"; "distinct"; "version"].
Definition settings : list string := ["lang"; "file"; "out"].

(** One or two dashes; they are equivalent. *)
Definition dashes (d : string) : Prop := d = "-" \/ d = "--".

(** The ways to write a boolean. *)
Inductive truth : string -> bool -> Prop :=
| Truth_true v : In v ["1"; "t"; "T"; "true"; "TRUE"; "True"] -> truth v true
| Truth_false v : In v ["0"; "f"; "F"; "false"; "FALSE"; "False"] -> truth v false.

(** Flag parsing stops just before the first argument that is not a flag, or at the terminator "--"; "-" is not a flag. *)
Definition no_more_flags (args : list string) : Prop :=
  match args with
  | [] => True
  | a :: _ => a = "--" \/ a = "-" \/ forall r, a <> "-" ++ r
  end.

(** The flags on a command line and their values, in order. *)
Inductive parses : list string -> list (string * fvalue) -> Prop :=
| PA_end args : no_more_flags args -> parses args []
| PA_switch d n args set : dashes d -> In n switches -> parses args set ->
    parses ((d ++ n) :: args) ((n, VBool true) :: set)
| PA_switch_value d n v b args set : dashes d -> In n switches -> truth v b -> parses args set ->
    parses ((d ++ n ++ "=" ++ v) :: args) ((n, VBool b) :: set)
| PA_setting d n v args set : dashes d -> In n settings -> parses args set ->
    parses ((d ++ n) :: v :: args) ((n, VString v) :: set)
| PA_setting_value d n v args set : dashes d -> In n settings -> parses args set ->
    parses ((d ++ n ++ "=" ++ v) :: args) ((n, VString v) :: set).

(** The value that is set last. *)
Definition last_set (n : string) (set : list (string * fvalue)) (v : fvalue) : Prop :=
  exists a b, set = (a ++ (n, v) :: b)%list /\ forall w, ~ In (n, w) b.
