(** * WebSpec: vocabulary of the statements about the web service (C56 - C58). *)

From Verif Require Import Base Utf8 Unicode Token Stream StreamSpec Tokenizer Html Web.
Local Open Scope string_scope.

(** The character does not occur. *)
Fixpoint without (c : ascii) (s : string) : Prop :=
  match s with
  | EmptyString => True
  | String x r => x <> c /\ without c r
  end.

(** [seg] is what is between the first and the second slash of the path (between the first slash and the end). *)
Definition first_segment (p seg : string) : Prop :=
  exists x rest, p = x ++ String "/" (seg ++ rest) /\ without "/" x /\ without "/" seg /\ (rest = "" \/ exists r, rest = String "/" r).

(** The characters that are not shown as themselves. *)
Inductive special : ascii -> string -> Prop :=
| S_quot : special "034" "&#34;"
| S_amp : special "&" "&amp;"
| S_apos : special "'" "&#39;"
| S_plus : special "+" "&#43;"
| S_lt : special "<" "&lt;"
| S_gt : special ">" "&gt;"
| S_nul : special "000" (String "239" (String "191" (String "189" ""))).

Inductive escaped : string -> string -> Prop :=
| E_nil : escaped "" ""
| E_special c x s s' : special c x -> escaped s s' -> escaped (String c s) (x ++ s')
| E_plain c s s' : (forall x, ~ special c x) -> escaped s s' -> escaped (String c s) (String c s').

(** What is sent for a token. *)
Definition rendered (t : token) (s : string) : Prop :=
  exists e, escaped (tvalue t) e /\ s = if tlemma t then "<span class=" ++ String "034" ("lemma" ++ String "034" ">") ++ e ++ "</span>" else e.

(** What is sent for a list of tokens. *)
Definition page (l : list token) (s : string) : Prop := exists ps, Forall2 rendered l ps /\ s = sconcat ps.

(** What a browser shows: tags are removed, character references replaced. *)
Inductive mode := Text | InTag | InRef (name : string).
Definition entity (name : string) : string :=
  if seqb name "amp" then "&" else if seqb name "lt" then "<" else if seqb name "gt" then ">" else
  if seqb name "#34" then String "034" "" else if seqb name "#39" then "'" else if seqb name "#43" then "+" else
  "&" ++ name ++ ";".
Fixpoint shown (m : mode) (s : string) : string :=
  match s with
  | EmptyString => match m with InRef n => "&" ++ n | _ => "" end
  | String c r =>
    match m with
    | Text => if Ascii.eqb c "<" then shown InTag r else if Ascii.eqb c "&" then shown (InRef "") r else String c (shown Text r)
    | InTag => if Ascii.eqb c ">" then shown Text r else shown InTag r
    | InRef n => if Ascii.eqb c ";" then entity n ++ shown Text r else shown (InRef (n ++ String c "")) r
    end
  end.

(** No markup: none of < > and the quotes. *)
Definition harmless (s : string) : Prop := without "<" s /\ without ">" s /\ without "034" s /\ without "'" s.

(** The text with every NUL replaced by U+FFFD. *)
Fixpoint no_nul (s : string) : string :=
  match s with
  | EmptyString => ""
  | String c r => if Ascii.eqb c "000" then String "239" (String "191" (String "189" (no_nul r))) else String c (no_nul r)
  end.

(** The stream delivers [l] and then an error without a token. *)
Definition Breaks (s : TokenStream) (l : list token) (e : error) : Prop :=
  exists s1 s2, Pulls s l s1 /\ Nexts s1 (None, Some e) s2.

(** The tokens of a request. *)
Definition request_tokens (U : unicode) (scan : oracle) (parse : reader -> hparser) (q : request) (seg : string) (s : TokenStream) : Prop :=
  (seg = "text" /\ s = Tokenize U scan (rbody q)) \/ (seg = "html" /\ s = TokenizeHTML U scan (parse (rbody q))).

(** A response to which nothing has been sent yet; [acc] is the text accepted by the connection. *)
Definition untouched {w} (acc : wstate w -> string) (r : response w) : Prop := rstatus r = None /\ acc (rws r) = "".

(** The connection accepts everything. *)
Definition reliable (w : writer) (acc : wstate w -> string) : Prop :=
  forall ws v, exists ws', wwrite w ws v = ((String.length v, None), ws') /\ acc ws' = acc ws ++ v.

(** The answer has this header, with this value only. *)
Definition header {w} (r : response w) (k v : string) : Prop := In (k, v) (sent r) /\ forall v', In (k, v') (sent r) -> v' = v.

(** The headers that allow scripts from anywhere to use the service, and those of an error page. *)
Definition cors_headers : list (string * string) := [("Access-Control-Allow-Origin", "*"); ("Access-Control-Allow-Headers", "X-Requested-With")].
Definition plain_headers : list (string * string) := [("Content-Type", "text/plain; charset=utf-8"); ("X-Content-Type-Options", "nosniff")].
