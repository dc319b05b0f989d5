(** * Property theorems C106: the web service beside the command line tool *)

From Verif Require Import Base Utf8 Unicode UnicodeData Token Stream StreamSpec Tokenizer Words Html Synonyms Cli CliSpec Web WebSpec PipeSpec AgreeSpec
  PropWebLemmas PropPipeLemmas PropAgreeLemmas.
Local Open Scope string_scope.

(** The page for a text (or an HTML document) shows what the command prints for it, and marks what the command prints as lemmas; NUL is shown as U+FFFD (C57). *)
Theorem C106_page_and_output :
  forall (c : command) (html : bool) (s p : string), (html = true -> parsed (PipeSpec.parse c (mkReader s None))) -> answers c html s p ->
  (forall x, prints c (html_flag html ++ ["-stack"]) s x -> shown Text p = no_nul x) /\
  (forall x, prints c (html_flag html ++ ["-stack"; "-lemmas"; "-lines"]) s x -> one_per_line (marked Before p) = no_nul x) /\
  (forall x, prints c (html_flag html ++ ["-stack"; "-lemmas"; "-count"]) s x -> exists d, decimal (List.length (marked Before p)) d /\ x = d ++ String "010" "").
Proof. exact C106_lemma. Qed.
Print Assumptions C106_page_and_output.

(** There are always a page and outputs, and one page only. *)
Theorem C106_both_answer :
  (forall (c : command) (html : bool) (s : string), (html = true -> parsed (PipeSpec.parse c (mkReader s None))) ->
   exists p x y z, answers c html s p /\ prints c (html_flag html ++ ["-stack"]) s x /\ prints c (html_flag html ++ ["-stack"; "-lemmas"; "-lines"]) s y /\
     prints c (html_flag html ++ ["-stack"; "-lemmas"; "-count"]) s z) /\
  (forall (c : command) (html : bool) (s p p' : string), answers c html s p -> answers c html s p' -> p = p').
Proof. exact (conj C106_both answers_inj). Qed.
Print Assumptions C106_both_answer.

(** There are commands and documents; a page and the outputs, computed. *)
Example C106_example :
  parsed (mkHP [mkH StartTag (OtherAtom 0) "<b>"; mkH HText AtomZero "hi"] None) /\
  (exists c : command, tags c = tags no_tags) /\
  (let s := "A & Ruby on Rails <b> rubyonrails" in
   let p := "A &amp; <span class=" ++ String "034" ("lemma" ++ String "034" ">ruby-on-rails</span> &lt;b&gt; <span class=") ++
     String "034" ("lemma" ++ String "034" ">ruby-on-rails</span>") in
   ask "POST" "/text" (mkReader s None) = Some (200%N, p) /\ tool ["-stack"] s = Some (shown Text p) /\
   tool ["-stack"; "-lemmas"; "-lines"] s = Some (one_per_line (marked Before p)) /\ marked Before p = ["ruby-on-rails"; "ruby-on-rails"] /\
   tool ["-stack"; "-lemmas"; "-count"] s = Some ("2" ++ String "010" "")).
Proof.
  split; [|split].
  - split; [reflexivity|]. intros h [<-|[<-|[]]]; discriminate.
  - exists no_tags. reflexivity.
  - vm_compute. repeat split.
Qed.
