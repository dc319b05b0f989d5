(** * Property theorems C86: one filter for several streams *)

From Verif Require Import Base Utf8 Unicode UnicodeData Token Stream Tokenizer Filters Synonyms Words Sources
  Aliasing AliasSpec ReuseSpec OnceProofs PropReuseLemmas.
Local Open Scope string_scope.
Local Open Scope list_scope.

(** C86 is false for a synonyms filter with a key that cannot be tokenized: only its first stream reports that. *)
Theorem C86_refuted :
  ~ (forall (U : unicode) (scan : oracle) (ic : bool) (fuel : nat) (m : mem), scanner_ok scan -> fuel <> 0 ->
     separate (synonyms_maker U scan ic) fuel m).
Proof. exact C86_refutation. Qed.
Print Assumptions C86_refuted.

(** It holds exactly for those that can be built. *)
Theorem C86_synonyms_partial :
  forall (U : unicode) (scan : oracle) (ic : bool) (fuel : nat) (m : mem), fuel <> 0 ->
  (separate (synonyms_maker U scan ic) fuel m <->
   forall e b, build U scan fuel (mkConfig (m_mappings m) ic (m_runes m)) = Ret (e, b) -> e = None).
Proof. exact C86_synonyms_exact. Qed.
Print Assumptions C86_synonyms_partial.

(** The streams of a stop-word filter or a mapper never disturb each other. *)
Theorem C86_stopwords_partial : forall (U : unicode) (ic : bool) (fuel : nat) (m : mem), separate (stopwords_maker U ic) fuel m.
Proof. exact C86_stopwords. Qed.
Print Assumptions C86_stopwords_partial.

Theorem C86_mapper_partial : forall (fuel : nat) (m : mem), separate mapper_maker fuel m.
Proof. exact C86_mapper. Qed.
Print Assumptions C86_mapper_partial.

(** Two streams of one filter, read in turns, and the first alone. *)
Example C86_example :
  let a := source [tok "ruby"; tok " "; tok "on"; tok " "; tok "rails"] None in
  let b := source [tok "js"] None in
  let m := mkMem [] [("ruby on rails", "rails"); ("js", "javascript")] [] [] in
  let ops := [Apply a; Apply b; Call 0; Call 1; Call 0; Call 1] in
  let rs := [(Some (mkToken "rails" false false true), None); (Some (mkToken "javascript" false false true), None);
             (None, None); (None, None)] in
  proper 0 ops /\ only 0 0 ops = [Apply a; Call 0; Call 0] /\
  picked 0 ops rs = [(Some (mkToken "rails" false false true), None); (None, None)] /\
  session (synonyms_maker go_unicode words_scan true) 20 m ops = Ret rs /\
  session (synonyms_maker go_unicode words_scan true) 20 m (only 0 0 ops) = Ret (picked 0 ops rs).
Proof. repeat split; try (cbn; lia); vm_compute; reflexivity. Qed.

(** The same with a filter that cannot be built. *)
Example C86_witness :
  let s := source [] None in
  let m := mkMem [] [("javascript", "js")] [] [] in
  session (synonyms_maker go_unicode (limited 5) true) 20 m [Apply s; Apply s; Call 1] = Ret [(None, None)] /\
  exists e, session (synonyms_maker go_unicode (limited 5) true) 20 m [Apply s; Call 0] = Ret [(None, Some e)].
Proof. vm_compute. split; [reflexivity|eauto]. Qed.
