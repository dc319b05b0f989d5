(** * Property theorem C74 *)

From Verif Require Import Base Cli FlagSpec PropFlagLemmas.
Local Open Scope string_scope.

(** An argument list is accepted exactly if it has the documented form, with these flags; any other is an error. *)
Theorem C74_flags_as_documented : forall (args : list string) (set : list (string * fvalue)),
  flag_Parse args = Some set <-> parses args set.
Proof. exact C74_lemma. Qed.
Print Assumptions C74_flags_as_documented.

(** Of several values the last one counts; without one, the default. *)
Theorem C74_last_value_counts : forall (args : list string) (set : list (string * fvalue)), parses args set ->
  (forall n, In n switches -> (get_bool n set = true <-> last_set n set (VBool true)) /\ (get_bool n set = false <-> ~ last_set n set (VBool true))) /\
  (forall n dflt, In n settings -> (forall v, last_set n set (VString v) -> get_string n dflt set = v) /\
     ((forall v, ~ In (n, v) set) -> get_string n dflt set = dflt) /\ ((exists v, In (n, v) set) -> exists v, last_set n set (VString v))).
Proof. exact C74_values_lemma. Qed.
Print Assumptions C74_last_value_counts.

Example C74_example : parses ["-lines"; "--file=a"; "-count=F"; "-file"; "-b"; "--"; "-html"]
  [("lines", VBool true); ("file", VString "a"); ("count", VBool false); ("file", VString "-b")].
Proof.
  apply (PA_switch "-" "lines"); [now left|cbn; auto 20|]. apply (PA_setting_value "--" "file" "a"); [now right|cbn; auto 20|].
  apply (PA_switch_value "-" "count" "F"); [now left|cbn; auto 20|constructor; cbn; auto 20|].
  apply (PA_setting "-" "file" "-b"); [now left|cbn; auto 20|]. apply PA_end. now left.
Qed.
Example C74_example_errors : flag_Parse ["---lines"] = None /\ flag_Parse ["-=x"] = None /\ flag_Parse ["-file"] = None /\
  flag_Parse ["-lines=yes"] = None /\ flag_Parse ["-nolines"] = None /\ flag_Parse ["-help"] = None.
Proof. repeat split; reflexivity. Qed.
