(** * CaseSpec: texts in capital letters (C94). *)

From Verif Require Import Base Utf8 Unicode UnicodeData UpperTable Token.
Local Open Scope N_scope.

(** [unicode.ToUpper]; [lower_lookup] looks up a rune in a table of runs, here that of capital letters. *)
Definition capital (r : N) : N := lower_lookup upper_runs r.

(** A text in capital letters ([strings.ToUpper]; what is not UTF-8 becomes U+FFFD). *)
Definition capitals (v : string) : string := encode (map capital (runes v)).

(** The token [u] is [t] in capital letters. *)
Definition in_capitals (t u : token) : Prop :=
  tvalue u = capitals (tvalue t) /\ tpunct u = tpunct t /\ tspace u = tspace t /\ tlemma u = tlemma t.

(** Lower-case letters that share their capital letter with another one, and that capital letter has the other as its
    small one: micro sign, dotless i, long s, iota subscript, final sigma, seven Greek symbols, nine Cyrillic variants, long s
    with dot above, and the spacing iota subscript. *)
Definition second_letters : list N :=
  [181; 305; 383; 837; 962; 976; 977; 981; 982; 1008; 1009; 1013;
   7296; 7297; 7298; 7299; 7300; 7301; 7302; 7303; 7304; 7835; 8126].

(** None of them occurs. *)
Definition first_letters (v : string) : Prop := Forall (fun r => ~ In r second_letters) (runes v).
