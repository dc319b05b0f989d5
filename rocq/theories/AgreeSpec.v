(** * AgreeSpec: the web service beside the command line tool (C106). *)

From Verif Require Import Base Utf8 Unicode UnicodeData Token Stream StreamSpec Tokenizer Words Html Synonyms Web WebSpec PipeSpec.
Local Open Scope string_scope.

(** The document was parsed to its end, and no text node of it is empty. *)
Definition parsed (p : hparser) : Prop := herr p = None /\ forall h, In h (hpending p) -> h_type h = HText -> h_string h <> "".

(** The service, with the same dictionary and parser as the command [c], answers [s] at /text or /html with the page [p] and status 200; whatever the method
    (but OPTIONS), on every connection that takes all text. *)
Definition answers (c : command) (html : bool) (s p : string) : Prop :=
  forall (conn : writer) (acc : wstate conn -> string) (q : request) (r : response conn),
  reliable conn acc -> untouched acc r -> method q <> "OPTIONS" -> path q = (if html then "/html" else "/text") -> rbody q = mkReader s None ->
  exists r', Returns (fun fuel => serve go_unicode words_scan (parse c) (SynFilter go_unicode None (tags c)) conn fuel q r) r' /\
    status r' = 200%N /\ acc (rws r') = p.

(** The arguments for the same kind of text. *)
Definition html_flag (html : bool) : list string := if html then ["-html"] else [].

(** What a browser shows in the elements of a page without nested elements, in order; there are no others than those for lemmas (C57). *)
Inductive place := Before | Opening | Inside (seen : string) | Closing.
Fixpoint marked (m : place) (p : string) : list string :=
  match p with
  | EmptyString => []
  | String c r =>
    match m with
    | Before => if Ascii.eqb c "<" then marked Opening r else marked Before r
    | Opening => if Ascii.eqb c ">" then marked (Inside "") r else marked Opening r
    | Inside seen => if Ascii.eqb c "<" then shown Text seen :: marked Closing r else marked (Inside (seen ++ String c "")) r
    | Closing => if Ascii.eqb c ">" then marked Before r else marked Closing r
    end
  end.

(** The texts, each on a line of its own. *)
Definition one_per_line (xs : list string) : string := sconcat (map (fun x => x ++ String "010" "") xs).
