(** * PropGeneratorsLemmas: what is behind the statements in PropGenerators. *)

From Coq Require Import ZArith Permutation.
From Verif Require Import Base Utf8 Unicode UnicodeData Ascii ContractionsGen Generators GenSpec NbaTable SoTable TokenProofs GenProofs GeneratorProofs SoGenProofs.

Lemma C60_lemma U errorf : uIsSpace U 65533 = false -> forall names,
  ((forall n, In n names -> occurrences "," n = 1) -> exists m, nba_getMappings U errorf names = (Some m, None) /\
     NoDup (map fst m) /\ forall k c, In (k, c) m <-> exists n, In n names /\ player U n k c) /\
  (forall pre bad post, names = pre ++ bad :: post -> (forall n, In n pre -> occurrences "," n = 1) -> occurrences "," bad <> 1 ->
     nba_getMappings U errorf names = (None, Some (errorf bad (S (occurrences "," bad))))).
Proof.
  intros E names. split.
  - intros G. destruct (nba_loop_spec U errorf E names G [] []) as (m & L & N & M); [intros ? []|constructor| |exists m; auto].
    intros k c. split; [intros []|intros (? & [] & _)].
  - intros pre bad post -> G B. apply nba_loop_error; assumption.
Qed.

(** ** The shipped NBA table *)

(** "First Last" as "Last, First": cut at the first space. *)
Fixpoint cut_space (s : string) : string * string :=
  match s with
  | EmptyString => (EmptyString, EmptyString)
  | String c r => if Ascii.eqb c " " then (EmptyString, r) else let '(a, b) := cut_space r in (String c a, b)
  end.
Definition nba_names : list string :=
  map (fun kc : string * string => let '(a, b) := cut_space (snd kc) in (b ++ ", " ++ a)%string) nba_mappings.

Definition same_map (a b : gmap) : bool := covers a b && covers b a && nodupb (map fst a) && nodupb (map fst b).

Lemma same_map_spec a b : same_map a b = true -> Permutation a b.
Proof.
  unfold same_map. intros H. apply andb_prop in H as [H H4]. apply andb_prop in H as [H H3]. apply andb_prop in H as [H1 H2].
  apply NoDup_Permutation; [apply NoDup_pairs, nodupb_spec, H3|apply NoDup_pairs, nodupb_spec, H4|].
  intros kv. split; [apply (covers_spec _ _ H1)|apply (covers_spec _ _ H2)].
Qed.

Lemma nba_check errorf : match nba_getMappings go_unicode errorf nba_names with (Some m, None) => same_map m nba_mappings | _ => false end = true.
Proof. vm_compute. reflexivity. Qed.

Lemma checked_map (r : option gmap * option error) t : match r with (Some m, None) => same_map m t | _ => false end = true ->
  exists m, r = (Some m, None) /\ Permutation m t.
Proof. destruct r as [[m|] [e|]]; try discriminate. intros H. exists m. split; [reflexivity|]. apply same_map_spec, H. Qed.

Lemma C60_shipped_lemma errorf : exists names m, nba_getMappings go_unicode errorf names = (Some m, None) /\ Permutation m nba_mappings.
Proof.
  exists nba_names. apply checked_map, nba_check.
Qed.

(** ** The shipped Stack Overflow table *)

Definition strip1 (s : string) : string := match s with String " " r => r | _ => s end.
Definition so_items : list item :=
  flat_map (fun kc : string * string => let '(k, c) := kc in
    if seqb k (spaced c)
    then [mkItem c (flat_map (fun kc' : string * string => if seqb (snd kc') c && negb (seqb (fst kc') k) then map strip1 (split_on "," (fst kc')) else []) so_mappings) false]
    else []) so_mappings.

Fixpoint hundreds (n : nat) (l : list item) : list (list item) :=
  match n with
  | O => []
  | S n' => firstn 100 l :: hundreds n' (skipn 100 l)
  end.
Definition so_pages : list (list item) := hundreds 20 so_items.

Lemma hundreds_length n : forall l, length (hundreds n l) = n.
Proof. induction n; intros l; cbn [hundreds length]; auto. Qed.

Lemma so_pages_length : length so_pages = 20.
Proof. apply hundreds_length. Qed.

Definition so_check (pages : list (list item)) (table : gmap) : bool :=
  same_map (fst (run_pages pages [] [])) table &&
  forallb (fun p => Nat.leb (length p) 100) pages &&
  forallb (fun t => forallb (fun s => Nat.eqb (occurrences "," s) 0) (iname t :: isynonyms t)) (concat pages).
Lemma so_checked : so_check so_pages so_mappings = true.
Proof. vm_cast_no_check (eq_refl true). Qed.

(** An API that has these pages. *)
Definition api_of (ps : list (list item)) (page : nat) (site : string) : wrapper + error :=
  inl (mkWrapper (nth (page - 1) ps []) (Nat.ltb page (length ps)) "" "" 0).

Lemma fetched_api site n : forall ps a b, ps = a ++ b -> b <> [] -> length b <= n -> fetched (api_of ps) site (S (length a)) n b.
Proof.
  induction n as [|n IH]; intros ps a b E N L; [destruct b; [congruence|cbn in L; lia]|].
  destruct b as [|p [|q b]]; [congruence| |].
  - apply F_last with (b := 0%Z). unfold api_of. rewrite E, app_length. cbn [length]. rewrite app_nth2 by lia.
    replace (S (length a) - 1 - length a) with 0 by lia. cbn [nth]. repeat f_equal. apply Nat.ltb_ge. lia.
  - apply F_more with (b := 0%Z); [|lia|].
    + unfold api_of. rewrite E, app_length. cbn [length]. rewrite app_nth2 by lia.
      replace (S (length a) - 1 - length a) with 0 by lia. cbn [nth]. repeat f_equal. apply Nat.ltb_lt. lia.
    + specialize (IH ps (a ++ [p]) (q :: b)). rewrite app_length, Nat.add_1_r in IH. apply IH; [now rewrite <- app_assoc|discriminate|cbn in *; lia].
Qed.

Lemma fetched_pages ps : ps <> [] -> length ps <= 20 -> fetched (api_of ps) "stackoverflow" 1 20 ps.
Proof. intros N L. apply (fetched_api "stackoverflow" 20 ps [] ps eq_refl N L). Qed.

Lemma check_pages abort pages table : length pages = 20 -> so_check pages table = true ->
  exists api ps m, fetched api "stackoverflow" 1 20 ps /\ (forall p, In p ps -> length p <= 100) /\ no_commas ps /\
  so_mappings_of api abort = inl m /\ Permutation m table.
Proof.
  intros L H. unfold so_check in H. apply andb_prop in H as [H H3]. apply andb_prop in H as [H1 H2].
  assert (Ne : pages <> []) by (intros X; rewrite X in L; discriminate).
  assert (F : fetched (api_of pages) "stackoverflow" 1 20 pages) by (apply fetched_pages; [exact Ne|rewrite L; lia]).
  exists (api_of pages), pages, (fst (run_pages pages [] [])). split; [exact F|]. split; [|split; [|split]].
  - intros p I. rewrite forallb_forall in H2. apply Nat.leb_le, H2, I.
  - intros t (p & Ip & It & _). rewrite forallb_forall in H3. specialize (H3 t). rewrite in_concat in H3. specialize (H3 (ex_intro _ p (conj Ip It))).
    rewrite forallb_forall in H3. split; [|intros s Is]; apply Nat.eqb_eq, H3; [now left|now right].
  - apply so_run, F.
  - apply same_map_spec, H1.
Qed.

Lemma C61_shipped_lemma abort : exists api ps m, fetched api "stackoverflow" 1 20 ps /\ (forall p, In p ps -> length p <= 100) /\ no_commas ps /\
  so_mappings_of api abort = inl m /\ Permutation m so_mappings.
Proof. exact (check_pages abort so_pages so_mappings so_pages_length so_checked). Qed.

(** ** Refutations *)

Definition dd_pages : list (list item) := [[mkItem "drop-down" [] false]]%string.

Lemma C62_refuted_lemma : ~ (forall api abort ps m, fetched api "stackoverflow" 1 20 ps -> no_commas ps -> consistent ps ->
  so_mappings_of api abort = inl m -> forall e c, In e exceptions -> ~ listed m (with_spaces e) c).
Proof.
  intros H. assert (F : fetched (api_of dd_pages) "stackoverflow" 1 20 dd_pages) by (apply fetched_pages; [discriminate|cbn; lia]).
  eapply (H _ (fun _ => ""%string) _ _ F) with (e := "drop-down"%string) (c := "drop-down"%string).
  - intros t (p & [<-|[]] & [<-|[]] & _). split; [reflexivity|intros ? []].
  - intros t1 t2 w (p & [<-|[]] & [<-|[]] & _) (p' & [<-|[]] & [<-|[]] & _). reflexivity.
  - apply so_run, F.
  - now left.
  - exists ["drop down"%string]. split; [intros x [<-|[]]; reflexivity|]. split; [now left|]. vm_compute. now left.
Qed.

Definition late_pages : list (list item) := [[mkItem "mysql-c" [] false]; [mkItem "mysql" ["mysql-c"; "mysql-d"] false]]%string.

Lemma C63_refuted_lemma : ~ (forall api abort ps m, fetched api "stackoverflow" 1 20 ps -> no_commas ps -> synonyms_consistent ps ->
  so_mappings_of api abort = inl m -> forall w c1 c2, listed m w c1 -> listed m w c2 -> c1 = c2).
Proof.
  intros H. assert (F : fetched (api_of late_pages) "stackoverflow" 1 20 late_pages) by (apply fetched_pages; [discriminate|cbn; lia]).
  assert (A : "mysql-c"%string = "mysql"%string); [|discriminate].
  eapply (H _ (fun _ => ""%string) _ _ F) with (w := "mysql c"%string).
  - intros t (p & [<-|[<-|[]]] & [<-|[]] & _); (split; [reflexivity|]); [intros ? []|intros s [<-|[<-|[]]]; reflexivity].
  - split.
    + intros t1 t2 s1 s2 (p & [<-|[<-|[]]] & [<-|[]] & _) (p' & [<-|[<-|[]]] & [<-|[]] & _); cbn; intuition.
    + intros t1 t2 (p & [<-|[<-|[]]] & [<-|[]] & _) (p' & [<-|[<-|[]]] & [<-|[]] & _); vm_compute; congruence.
  - apply so_run, F.
  - exists ["mysql c"%string]. split; [intros x [<-|[]]; reflexivity|]. split; [now left|]. vm_compute. auto.
  - exists ["mysql c"; "mysql d"]%string. split; [intros x [<-|[<-|[]]]; reflexivity|]. split; [now left|]. vm_compute. auto.
Qed.
