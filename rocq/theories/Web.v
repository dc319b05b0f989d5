(** * Web: model of /repo/web/main.go

    The handlers, called with a request and a fresh response.  Of net/http's server and multiplexer only the choice of the
    handler is modelled (not path cleaning, the body of HEAD responses, content sniffing); log.Print has no effect.  html/template's escaper for text is modelled after the
    standard library's htmlReplacer; executing a template into a bytes.Buffer cannot fail, so lines 80-84 are left out. *)

From Verif Require Import Base Utf8 Unicode Token Stream Tokenizer Html.

(** The parts of http.Request that are used: Method, URL.Path, Body. *)
Record request := mkRequest { method : string; path : string; rbody : reader }.

(** http.ResponseWriter: the status given to WriteHeader (the first one counts) with the headers of that time, the headers
    now, what was written. *)
Record response (w : writer) := mkResponse {
  rstatus : option (N * list (string * string));
  rheaders : list (string * string);
  rws : wstate w
}.
Arguments mkResponse {w}.
Arguments rstatus {w}.
Arguments rheaders {w}.
Arguments rws {w}.

(** What the client sees. *)
Definition status {w} (r : response w) : N := match rstatus r with Some (n, _) => n | None => 200%N end.
Definition sent {w} (r : response w) : list (string * string) := match rstatus r with Some (_, h) => h | None => rheaders r end.

Definition WriteHeader {w} (n : N) (r : response w) : response w :=
  match rstatus r with
  | Some _ => r
  | None => mkResponse (Some (n, rheaders r)) (rheaders r) (rws r)
  end.

(** Write calls WriteHeader(200) if none was called. *)
Definition rWrite {w} (s : string) (r : response w) : (nat * option error) * response w :=
  let r1 := WriteHeader 200 r in
  let '(x, ws) := wwrite w (rws r1) s in (x, mkResponse (rstatus r1) (rheaders r1) ws).

(** Header().Set *)
Definition set_header {w} (k v : string) (r : response w) : response w :=
  mkResponse (rstatus r) (filter (fun kv => negb (seqb (fst kv) k)) (rheaders r) ++ [(k, v)]) (rws r).

(** http.NotFound *)
Definition NotFound {w} (r : response w) : response w :=
  let r := set_header "Content-Type" "text/plain; charset=utf-8" r in
  let r := set_header "X-Content-Type-Options" "nosniff" r in
  let r := WriteHeader 404 r in
  snd (rWrite ("404 page not found" ++ String "010" EmptyString)%string r).

(** strings.Split(s, "/") *)
Fixpoint split_slash (s : string) : list string :=
  match s with
  | EmptyString => [EmptyString]
  | String c r =>
    if Ascii.eqb c "/" then EmptyString :: split_slash r
    else match split_slash r with
    | x :: l => String c x :: l
    | [] => [String c EmptyString]
    end
  end.

(** html/template: htmlReplacementTable; bytes above 0x7F, valid UTF-8 or not, are copied *)
Definition escape_char (c : ascii) : string :=
  match byte_of c with
  | 0 => String "239" (String "191" (String "189" EmptyString))
  | 34 => "&#34;"
  | 38 => "&amp;"
  | 39 => "&#39;"
  | 43 => "&#43;"
  | 60 => "&lt;"
  | 62 => "&gt;"
  | _ => String c EmptyString
  end%N%string.
Fixpoint escape (s : string) : string :=
  match s with
  | EmptyString => EmptyString
  | String c r => (escape_char c ++ escape r)%string
  end.

(** main.go:95-96 *)
Definition quote : ascii := "034".
Definition span_open : string := ("<span class=" ++ String quote ("lemma" ++ String quote ">"))%string.
Definition span_close : string := "</span>".
Definition lemma_Execute (t : token) : string := (span_open ++ escape (tvalue t) ++ span_close)%string.
Definition plain_Execute (t : token) : string := escape (tvalue t).

Section Handlers.
Variable U : unicode.
Variable scan : oracle.
Variable parse : reader -> hparser.
(** stackoverflow.Tags *)
Variable Tags : Filter.
(** the connection *)
Variable conn : writer.

(** main.go:61-85 *)
Fixpoint render_loop (fuel k : nat) (b : string) (r : response conn) (s : TokenStream) : outcome (string * response conn) :=
  match k with
  | O => NoFuel
  | S k' =>
    do ((t, err), s') <- Next fuel s;
    let r := match err with Some _ => WriteHeader 500 r | None => r end in
    match t with
    | None => Ret (b, r)
    | Some t =>
      render_loop fuel k' (b ++ (if tlemma t then lemma_Execute t else plain_Execute t))%string r s'
    end
  end.

(** main.go:87-92; (bytes.Buffer).WriteTo *)
Definition send (b : string) (r : response conn) : outcome (response conn) :=
  if Nat.eqb (String.length b) 0 then Ret r
  else
    let '((n, err), r') := rWrite b r in
    if Nat.ltb (String.length b) n then Panic
    else if match err with Some _ => true | None => Nat.ltb n (String.length b) end then Ret (WriteHeader 500 r')
    else Ret r'.

(** main.go:37-93 *)
Definition jargonHandler (fuel : nat) (q : request) (r : response conn) : outcome (response conn) :=
  match split_slash (path q) with
  | _ :: route :: _ =>
    let tokens := if seqb route "text" then Some (Tokenize U scan (rbody q))
                  else if seqb route "html" then Some (TokenizeHTML U scan (parse (rbody q)))
                  else None in
    match tokens with
    | None => Ret (NotFound r)
    | Some tokens =>
      do (b, r1) <- render_loop fuel fuel EmptyString r (ApplyFilters [Tags] tokens);
      send b r1
    end
  | _ => Ret (NotFound r)
  end.

(** main.go:103-107 *)
Definition cors (r : response conn) : response conn :=
  set_header "Access-Control-Allow-Headers" "X-Requested-With" (set_header "Access-Control-Allow-Origin" "*" r).

(** main.go:27-35 *)
Definition mainHandler (fuel : nat) (q : request) (r : response conn) : outcome (response conn) :=
  let r := cors r in
  if seqb (method q) "OPTIONS" then Ret r else jargonHandler fuel q r.

(** main.go:98-101 *)
Definition healthCheckHandler (q : request) (r : response conn) : response conn :=
  snd (rWrite "ok" (cors r)).

(** main.go:22-23 HandleFunc; http.ServeMux takes the pattern equal to the (clean) path, else "/", which fits all paths. *)
Definition serve (fuel : nat) (q : request) (r : response conn) : outcome (response conn) :=
  if seqb (path q) "/_ah/health" then Ret (healthCheckHandler q r) else mainHandler fuel q r.
End Handlers.

(** main.go:18-21, 25: the address, from the environment variable PORT (empty if unset) *)
Definition address (port : string) : string := (":" ++ (if seqb port EmptyString then "8080" else port))%string.
