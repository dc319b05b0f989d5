(** * Property theorems C60 - C63: the generators of the NBA and the Stack Overflow dictionary *)

From Coq Require Import ZArith Permutation.
From Verif Require Import Base Utf8 Unicode UnicodeData Ascii ContractionsGen Generators GenSpec NbaTable SoTable SoSpec SoGenProofs SoExact PropGeneratorsLemmas.

(** ** C60 *)

(** Every name with one comma becomes its entry, and nothing else is in the map; the first other name is the error. *)
Theorem C60_nba_generator : forall (U : unicode) (errorf : string -> nat -> error), uIsSpace U 65533 = false -> forall names,
  ((forall n, In n names -> occurrences "," n = 1) -> exists m, nba_getMappings U errorf names = (Some m, None) /\
     NoDup (map fst m) /\ forall k c, In (k, c) m <-> exists n, In n names /\ player U n k c) /\
  (forall pre bad post, names = pre ++ bad :: post -> (forall n, In n pre -> occurrences "," n = 1) -> occurrences "," bad <> 1 ->
     nba_getMappings U errorf names = (None, Some (errorf bad (S (occurrences "," bad))))).
Proof. exact C60_lemma. Qed.
Print Assumptions C60_nba_generator.

(** The shipped table is what the generator makes of some roster. *)
Theorem C60_shipped_table : forall errorf, exists names m, nba_getMappings go_unicode errorf names = (Some m, None) /\ Permutation m nba_mappings.
Proof. exact C60_shipped_lemma. Qed.
Print Assumptions C60_shipped_table.

Example C60_example :
  uIsSpace go_unicode 65533 = false /\
  nba_getMappings go_unicode (fun n _ => n) ["Gordon, Aaron"; "Smailagić ,  Alen "; "Gordon,Aaron"]%string =
    (Some [("Alen Smailagić, Alen Smailagic", "Alen Smailagić"); ("Aaron Gordon", "Aaron Gordon")]%string, None) /\
  nba_getMappings go_unicode (fun n k => n) ["Gordon, Aaron"; "Nenê"; "a, b, c"]%string = (None, Some "Nenê"%string).
Proof. vm_compute. auto. Qed.

(** ** C61 *)

(** The map comes from the pages that are read, at most 20; it fails unless they are answered.  If no tag is written with a comma and
    no word stands for two tags, the words of the dictionary are the tags' names and synonyms, dashes written as spaces, without the
    exceptions; each with its tag. *)
Theorem C61_stackoverflow_generator : forall api abort,
  (forall m, so_mappings_of api abort = inl m -> exists ps, fetched api "stackoverflow" 1 20 ps) /\
  (forall ps, fetched api "stackoverflow" 1 20 ps -> exists m, so_mappings_of api abort = inl m /\
    (no_commas ps -> consistent ps -> forall w c,
      listed m w c <-> exists t, live ps t /\ iname t = c /\
        ((w = with_spaces (iname t) /\ ~ In w exceptions) \/ exists s, In s (isynonyms t) /\ ~ In s exceptions /\ w = with_spaces s))).
Proof. exact C61_lemma. Qed.
Print Assumptions C61_stackoverflow_generator.

(** The shipped table is what the generator makes of some 20 pages of at most 100 tags. *)
Theorem C61_shipped_table : forall abort, exists api ps m,
  fetched api "stackoverflow" 1 20 ps /\ (forall p, In p ps -> length p <= 100) /\ no_commas ps /\
  so_mappings_of api abort = inl m /\ Permutation m so_mappings.
Proof. exact C61_shipped_lemma. Qed.
Print Assumptions C61_shipped_table.

Example C61_example :
  so_mappings_of (api_of [[mkItem "ruby-on-rails" ["rails"; "ror"; "for"] false; mkItem "closed" [] true]; [mkItem "this" [] false; mkItem "c#" ["c-sharp"] false]]%string)
    (fun _ => ""%string) = inl [("rails, ror", "ruby-on-rails"); ("ruby on rails", "ruby-on-rails"); ("c sharp", "c#"); ("c#", "c#")]%string /\
  so_mappings_of (fun p _ => if Nat.eqb p 1 then inl (mkWrapper [] true "" "" 11) else inl (mkWrapper [] false "" "" 0)) (fun _ => "abort"%string) = inr "abort"%string /\
  so_mappings_of (fun p _ => inl (mkWrapper [] true "throttle" "wait" 0)) (fun _ => "abort"%string) = inr "throttle: wait"%string.
Proof. vm_compute. auto. Qed.

(** ** C62 *)

(** A tag named "drop-down" gets past the exceptions: its dash is replaced before it is looked up. *)
Theorem C62_refuted : ~ (forall api abort ps m, fetched api "stackoverflow" 1 20 ps -> no_commas ps -> consistent ps ->
  so_mappings_of api abort = inl m -> forall e c, In e exceptions -> ~ listed m (with_spaces e) c).
Proof. exact C62_refuted_lemma. Qed.
Print Assumptions C62_refuted.

(** The other exceptions never become words.  Missing: "drop-down". *)
Theorem C62_exceptions_partial : forall api abort ps m, fetched api "stackoverflow" 1 20 ps -> no_commas ps ->
  so_mappings_of api abort = inl m -> forall e c, In e exceptions -> e <> "drop-down"%string -> ~ listed m (with_spaces e) c.
Proof. exact C62_lemma. Qed.
Print Assumptions C62_exceptions_partial.

Example C62_example :
  fetched (api_of [[mkItem "for" ["this"; "that"] false]]%string) "stackoverflow" 1 20 [[mkItem "for" ["this"; "that"] false]]%string /\
  so_mappings_of (api_of [[mkItem "for" ["this"; "that"] false]]%string) (fun _ => ""%string) = inl [("that", "for")]%string /\
  so_mappings_of (api_of [[mkItem "drop-down" ["drop-down"] false]]%string) (fun _ => ""%string) = inl [("drop down", "drop-down")]%string.
Proof. split; [apply fetched_pages; [discriminate|cbn; auto with arith]|]. vm_compute. auto. Qed.

(** ** C63 *)

(** A tag that is listed as a synonym only on a later page stays in the map beside it. *)
Theorem C63_refuted : ~ (forall api abort ps m, fetched api "stackoverflow" 1 20 ps -> no_commas ps -> synonyms_consistent ps ->
  so_mappings_of api abort = inl m -> forall w c1 c2, listed m w c1 -> listed m w c2 -> c1 = c2).
Proof. exact C63_refuted_lemma. Qed.
Print Assumptions C63_refuted.

(** No word is listed for two tags, if no page lists as a synonym what an earlier page has as a tag.  Missing: those pages. *)
Theorem C63_no_duplicates_partial : forall api abort ps m, fetched api "stackoverflow" 1 20 ps -> no_commas ps -> synonyms_consistent ps ->
  (forall a p b, ps = a ++ p :: b -> forall t1 t2 s, In t1 p -> moderator t1 = false -> live b t2 -> In s (isynonyms t2) ->
     with_spaces s <> with_spaces (iname t1)) ->
  so_mappings_of api abort = inl m -> forall w c1 c2, listed m w c1 -> listed m w c2 -> c1 = c2.
Proof. exact C63_lemma. Qed.
Print Assumptions C63_no_duplicates_partial.

(** Which words are listed for which tag, also when a tag is a synonym of another. *)
Theorem C63_words : forall api abort ps m, fetched api "stackoverflow" 1 20 ps -> no_commas ps -> synonyms_consistent ps ->
  so_mappings_of api abort = inl m ->
  forall w c, listed m w c <-> exists t, live ps t /\ iname t = c /\ (In w (words_of t) \/ name_listed ps t w).
Proof. exact C63_words_lemma. Qed.
Print Assumptions C63_words.

(** A word is listed for two tags exactly if it is the name of a tag [t] and a synonym of a tag [t'] that is first mentioned on a later
    page, and is not the only synonym of any tag there (that entry would replace the one of [t]). *)
Theorem C63_exactly : forall api abort ps m, fetched api "stackoverflow" 1 20 ps -> no_commas ps -> synonyms_consistent ps ->
  so_mappings_of api abort = inl m ->
  ((forall w c1 c2, listed m w c1 -> listed m w c2 -> c1 = c2) <->
   ~ exists a p b t t', ps = a ++ p :: b /\ In t p /\ moderator t = false /\ live b t' /\ iname t' <> iname t /\
    ~ In (with_spaces (iname t)) exceptions /\ In (with_spaces (iname t)) (words_of t') /\
    (forall u, live (a ++ [p]) u -> ~ In (with_spaces (iname t)) (words_of u)) /\
    (forall u, live b u -> words_of u <> [with_spaces (iname t)])).
Proof. exact C63_exact_lemma. Qed.
Print Assumptions C63_exactly.

Example C63_example :
  so_mappings_of (api_of [[mkItem "mysql-c" [] false; mkItem "mysql" ["mysql-c"; "mysql-d"] false]]%string) (fun _ => ""%string) =
    inl [("mysql c, mysql d", "mysql"); ("mysql", "mysql")]%string /\
  so_mappings_of (api_of [[mkItem "mysql-c" [] false]; [mkItem "mysql" ["mysql-c"; "mysql-d"] false]]%string) (fun _ => ""%string) =
    inl [("mysql c", "mysql-c"); ("mysql c, mysql d", "mysql"); ("mysql", "mysql")]%string /\
  so_mappings_of (api_of [[mkItem "mysql-c" [] false]; [mkItem "mysql" ["mysql-c"] false]]%string) (fun _ => ""%string) =
    inl [("mysql c", "mysql"); ("mysql", "mysql")]%string.
Proof. vm_compute. auto. Qed.
