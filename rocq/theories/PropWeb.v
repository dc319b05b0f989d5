(** * Property theorems C56 - C58, C75: the web service *)

From Verif Require Import Base Utf8 Unicode UnicodeData Token Stream StreamSpec Sources Tokenizer Html Words WordsProofs Trie Synonyms ChainSpec SynSpec
  Web WebSpec PropWebLemmas.
Local Open Scope string_scope.

(* ------------------------------------------------------------------ *)
(** ** C56 *)

Theorem C56_routing_and_rendering :
  forall (U : unicode) (scan : oracle) (parse : reader -> hparser) (Tags : Filter) (conn : writer) (acc : wstate conn -> string), reliable conn acc ->
  forall (fuel : nat) (q : request) (r : response conn), untouched acc r ->
  let mainHandler := mainHandler U scan parse Tags conn in
  (* OPTIONS *)
  (method q = "OPTIONS" -> exists r', mainHandler fuel q r = Ret r' /\ status r' = 200%N /\ acc (rws r') = "") /\
  (* no route *)
  (method q <> "OPTIONS" -> (forall seg, first_segment (path q) seg -> seg <> "text" /\ seg <> "html") ->
     exists r', mainHandler fuel q r = Ret r' /\ status r' = 404%N /\ acc (rws r') = "404 page not found" ++ String "010" "") /\
  (* text and html *)
  (method q <> "OPTIONS" -> forall seg s l, first_segment (path q) seg -> request_tokens U scan parse q seg s -> Yields (ApplyFilters [Tags] s) l ->
     exists r', Returns (fun fuel => mainHandler fuel q r) r' /\ status r' = 200%N /\ page l (acc (rws r'))).
Proof. exact C56_lemma. Qed.
Print Assumptions C56_routing_and_rendering.

Example C56_example_sink : reliable sink (fun ws => ws) /\ untouched (w := sink) (fun ws => ws) (mkResponse (w := sink) None [] "").
Proof. exact (conj sink_reliable (conj eq_refl eq_refl)). Qed.

Example C56_example :
  ask "POST" "/text" (mkReader "A & Ruby on Rails <b>" None) = Some (200%N, "A &amp; <span class=" ++ String "034" ("lemma" ++ String "034" ">ruby-on-rails</span> &lt;b&gt;")) /\
  ask "POST" "/text/x" (mkReader "hi" None) = Some (200%N, "hi") /\
  ask "POST" "/texts" (mkReader "hi" None) = Some (404%N, "404 page not found" ++ String "010" "") /\
  ask "POST" "text" (mkReader "hi" None) = Some (404%N, "404 page not found" ++ String "010" "") /\
  ask "OPTIONS" "/text" (mkReader "hi" None) = Some (200%N, "").
Proof. vm_compute. auto 8. Qed.

(* ------------------------------------------------------------------ *)
(** ** C57 *)

(** The page shows the text of the tokens: false. *)
Theorem C57_refuted :
  ~ (forall (U : unicode) (scan : oracle) (parse : reader -> hparser) (Tags : Filter) (conn : writer) (acc : wstate conn -> string) (q : request)
       (r r' : response conn) (seg : string) (s : TokenStream) (l : list token),
     scanner_ok scan -> reliable conn acc -> untouched acc r -> method q <> "OPTIONS" ->
     first_segment (path q) seg -> request_tokens U scan parse q seg s -> Yields (ApplyFilters [Tags] s) l ->
     Returns (fun fuel => mainHandler U scan parse Tags conn fuel q r) r' -> shown Text (acc (rws r')) = text l).
Proof. exact C57_refute. Qed.
Print Assumptions C57_refuted.

(** Missing: NUL is shown as U+FFFD.  Every page consists of harmless texts and lemma tags around them. *)
Theorem C57_no_markup_partial :
  forall (l : list token) (s : string), page l s ->
  (exists ps es, s = sconcat ps /\ Forall2 (fun t e => escaped (tvalue t) e /\ harmless e) l es /\
     Forall2 (fun te p => p = if tlemma (fst te) then "<span class=" ++ String "034" ("lemma" ++ String "034" ">") ++ snd te ++ "</span>" else snd te) (combine l es) ps) /\
  shown Text s = no_nul (text l) /\ (without "000" (text l) -> shown Text s = text l).
Proof. exact C57_lemma. Qed.
Print Assumptions C57_no_markup_partial.

Example C57_example_refuted : ask "POST" "/text" (mkReader (String "000" "") None) = Some (200%N, String "239" (String "191" (String "189" ""))).
Proof. vm_compute. reflexivity. Qed.
Example C57_example :
  let p := "1 &lt; 2 &amp; <span class=" ++ String "034" ("lemma" ++ String "034" ">c&#43;&#43;</span>") in
  shown Text p = "1 < 2 & c++" /\ page [tok "1 < 2 & "; lem "c++"] p.
Proof.
  split; [vm_compute; reflexivity|]. apply (page_render [tok "1 < 2 & "; lem "c++"]).
Qed.

(* ------------------------------------------------------------------ *)
(** ** C58; the other half, status 200, is in C56 *)

Theorem C58_status_500 :
  forall (U : unicode) (scan : oracle) (parse : reader -> hparser) (Tags : Filter) (conn : writer) (acc : wstate conn -> string), reliable conn acc ->
  forall (q : request) (seg : string) (s : TokenStream) (l : list token) (e : error) (r : response conn),
  untouched acc r -> method q <> "OPTIONS" -> first_segment (path q) seg -> request_tokens U scan parse q seg s ->
  Breaks (ApplyFilters [Tags] s) l e ->
  exists r', Returns (fun fuel => mainHandler U scan parse Tags conn fuel q r) r' /\ status r' = 500%N /\ page l (acc (rws r')).
Proof. exact C58_lemma. Qed.
Print Assumptions C58_status_500.

(** With a synonyms filter, as in the service, for every failing request. *)
Theorem C58_status_500_with_synonyms :
  forall (U : unicode) (scan : oracle) (parse : reader -> hparser) (conn : writer) (acc : wstate conn -> string)
    (ms : list (string * string)) (ic : bool) (ig : list N) (D : dictionary) (b : built),
  reliable conn acc -> scanner_ok scan -> uIsSpace U 44 = false -> dictionary_of (key_tokens U scan) ms D -> built_from U scan ms ic ig b ->
  forall (q : request) (seg : string) (s : TokenStream) (l : list token) (e : error) (r : response conn),
  untouched acc r -> method q <> "OPTIONS" -> first_segment (path q) seg -> request_tokens U scan parse q seg s -> Fails s l e ->
  exists r', Returns (fun fuel => mainHandler U scan parse (SynFilter U None b) conn fuel q r) r' /\ status r' = 500%N /\ acc (rws r') = "".
Proof. exact C58_synonyms. Qed.
Print Assumptions C58_status_500_with_synonyms.

Example C58_example : ask "POST" "/text" (mkReader "hi" (Some "gone")) = Some (500%N, "").
Proof. vm_compute. reflexivity. Qed.

(* ------------------------------------------------------------------ *)
(** ** C75 *)

(** Every answer, whatever the request and even if the connection fails. *)
Theorem C75_headers :
  forall (U : unicode) (scan : oracle) (parse : reader -> hparser) (Tags : Filter) (conn : writer) (fuel : nat) (q : request) (r r' : response conn),
  rstatus r = None -> serve U scan parse Tags conn fuel q r = Ret r' ->
  header r' "Access-Control-Allow-Origin" "*" /\ header r' "Access-Control-Allow-Headers" "X-Requested-With" /\
  (forall k v, In (k, v) (sent r') -> In (k, v) (rheaders r) \/ In (k, v) cors_headers \/ (status r' = 404%N /\ In (k, v) plain_headers)).
Proof. exact C75_lemma. Qed.
Print Assumptions C75_headers.

Theorem C75_health_check :
  forall (U : unicode) (scan : oracle) (parse : reader -> hparser) (Tags : Filter) (conn : writer) (acc : wstate conn -> string), reliable conn acc ->
  forall (fuel : nat) (q : request) (r : response conn), untouched acc r -> path q = "/_ah/health" ->
  exists r', serve U scan parse Tags conn fuel q r = Ret r' /\ status r' = 200%N /\ acc (rws r') = "ok".
Proof. exact C75_health_lemma. Qed.
Print Assumptions C75_health_check.

(** All other paths are those of C56 - C58. *)
Theorem C75_other_paths :
  forall (U : unicode) (scan : oracle) (parse : reader -> hparser) (Tags : Filter) (conn : writer) (q : request), path q <> "/_ah/health" ->
  forall (fuel : nat) (r : response conn), serve U scan parse Tags conn fuel q r = mainHandler U scan parse Tags conn fuel q r.
Proof. exact C75_others_lemma. Qed.
Print Assumptions C75_other_paths.

Theorem C75_address : address "" = ":8080" /\ forall port, port <> "" -> address port = ":" ++ port.
Proof. exact C75_address_lemma. Qed.
Print Assumptions C75_address.

Example C75_example :
  match serve go_unicode words_scan (fun _ => mkHP [] None) (fun s => s) sink 20 (mkRequest "GET" "/x" (mkReader "hi" None)) (mkResponse (w := sink) None [("Date", "now")] "") with
  | Ret r => Some (status r, sent r) | _ => None end
  = Some (404%N, [("Date", "now"); ("Access-Control-Allow-Origin", "*"); ("Access-Control-Allow-Headers", "X-Requested-With");
      ("Content-Type", "text/plain; charset=utf-8"); ("X-Content-Type-Options", "nosniff")]).
Proof. vm_compute. reflexivity. Qed.
