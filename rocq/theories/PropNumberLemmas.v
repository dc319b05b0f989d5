(** * Proofs about the number of tokens (C110) *)

From Coq Require Import ZArith Lia.
From Verif Require Import Base Utf8 Unicode UnicodeData Token Stream StreamSpec Tokenizer Words Filters Ascii Synonyms ContractionsTable
  FilterSpec SynSpec ChainSpec OriginSpec TallySpec Cli CliSpec LineSpec PipeSpec Sources StreamProofs TokenProofs FilterProofs AsciiProofs WordsProofs ChainProofs PropFiltersLemmas
  PropSynLemmas2 PropOriginLemmas PropRestLemmas PropPipeLemmas PropOutLinesLemmas PropTallyLemmas.
Local Open Scope list_scope.

Section Number.
Variables (U : unicode) (scan : oracle).
Hypothesis SC : scanner_ok scan.
Hypothesis CS : uIsSpace U 44 = false.

Lemma changing_map F : changing_filter U F -> exists f, transforms F (map f).
Proof.
  destruct 1; eexists.
  - apply mapper_transforms. assumption.
  - apply mapper_transforms. intros f t [<-|[]]. destruct (folder_total U t) as (t' & M & _). unfold maps_to in M. cbn in M. congruence.
  - apply mapper_transforms. intros f t [<-|[]]. unfold stem_token. destruct (tpunct t || tspace t); [discriminate|].
    destruct (seqb (stem (tvalue t) true) (tvalue t)) eqn:E; [discriminate|].
    destruct (NewToken_cons U (stem (tvalue t) true) true) as (t' & ->); [|discriminate].
    intros C. apply not_true_iff_false in E. apply E, seqb_eq. rewrite C. symmetry. auto.
  - apply mapper_transforms. intros f t [<-|[]]. unfold norm_token. destruct (isNormal (tvalue t)) eqn:E; [discriminate|].
    destruct (NewToken_cons U (normalize (tvalue t)) true) as (t' & ->); [auto|discriminate].
Qed.

Lemma C110_changing_lemma F : changing_filter U F -> as_many F.
Proof.
  intros H. destruct (changing_map F H) as (f & A & B & _). split.
  - intros s l o Y O. rewrite (Yields_inj _ _ _ O (A _ _ Y)). apply map_length.
  - intros s l e o Y O. destruct (Fails_inj _ _ _ _ _ O (B _ _ _ Y)) as [-> _]. apply map_length.
Qed.

Lemma changing_library F : changing_filter U F -> library_filter U scan F.
Proof. destruct 1; apply LF_plain; constructor; assumption. Qed.

Lemma other_library F : no_expansion U scan F -> library_filter U scan F.
Proof. destruct 1; try (apply LF_plain; constructor); try (econstructor; eassumption). now apply changing_library. Qed.

(** For failing streams the number follows from that for the complete stream. *)
Lemma at_most_complete k F : library_filter U scan F -> (forall s l o, Yields s l -> Yields (F s) o -> length o <= k * length l) -> at_most k F.
Proof.
  intros H Y. split; [exact Y|]. intros s l e o F1 F2. assert (Hs : Forall (library_filter U scan) [F]) by (constructor; [exact H|constructor]).
  destruct (C108_streams U scan SC CS [F] Hs s l e o F1 F2) as (_ & P & _).
  destruct (C12_lemma U scan SC CS [F] Hs _ _ (source_yields l)) as (o2 & Y2 & _).
  destruct (P (source l None) [] o2) as (y & ->); [rewrite app_nil_r; apply source_yields|exact Y2|].
  pose proof (Y _ _ _ (source_yields l) Y2) as L. rewrite app_length in L. lia.
Qed.

Lemma follows_at_most F s l o : follows F -> Yields s l -> Yields (F s) o -> length o <= 1 * length l.
Proof.
  intros H Y O. destruct (H _ _ Y) as (o' & O' & C). rewrite (Yields_inj _ _ _ O O'). pose proof (proj1 (C87_consequences _ _ C)). lia.
Qed.

Lemma C110_others_lemma F : no_expansion U scan F -> at_most 1 F.
Proof.
  intros H. apply at_most_complete; [now apply other_library|]. intros s l o Y O.
  destruct H as [F H|pred| | | |words ic|sigil legal H| | |ms ic ig D b Dd B].
  - rewrite (proj1 (C110_changing_lemma F H) _ _ _ Y O). lia.
  - eapply follows_at_most; [apply (marking_follows U scan SC CS _ (MF_where _ _ pred))|exact Y|exact O].
  - eapply follows_at_most; [apply (marking_follows U scan SC CS _ (MF_words _ _))|exact Y|exact O].
  - eapply follows_at_most; [apply (marking_follows U scan SC CS _ (MF_lemmas _ _))|exact Y|exact O].
  - eapply follows_at_most; [apply (marking_follows U scan SC CS _ (MF_distinct _ _))|exact Y|exact O].
  - eapply follows_at_most; [apply (marking_follows U scan SC CS _ (MF_stopwords _ _ words ic))|exact Y|exact O].
  - eapply follows_at_most; [apply (sigil_follows U sigil legal H)|exact Y|exact O].
  - eapply follows_at_most; [apply (marking_follows U scan SC CS _ (MF_handles _ _))|exact Y|exact O].
  - eapply follows_at_most; [apply (marking_follows U scan SC CS _ (MF_hashtags _ _))|exact Y|exact O].
  - eapply follows_at_most; [apply (marking_follows U scan SC CS _ (MF_synonyms _ _ _ _ _ _ _ Dd B))|exact Y|exact O].
Qed.

Lemma C110_chain_lemma fs ks : Forall2 (fun F k => library_filter U scan F /\ at_most k F) fs ks -> at_most (fold_right Nat.mul 1 ks) (ApplyFilters fs).
Proof.
  induction 1 as [|F k fs ks [LF [A B]] H [IA IB]].
  - split; cbn; intros.
    + rewrite (Yields_inj _ _ _ H0 H). lia.
    + destruct (Fails_inj _ _ _ _ _ H0 H) as [-> _]. lia.
  - assert (Hs : Forall (library_filter U scan) [F]) by (constructor; [exact LF|constructor]).
    destruct (chain_keeps U scan SC CS [F] Hs) as [K1 K2]. split; cbn [fold_right].
    + intros s l o Y O. destruct (K1 _ _ Y) as (m & M). change (Yields (F s) m) in M. pose proof (A _ _ _ Y M). pose proof (IA _ _ _ M O). nia.
    + intros s l e o Y O. destruct (K2 _ _ _ Y) as (m & M). change (Fails (F s) m e) in M. pose proof (B _ _ _ _ Y M). pose proof (IB _ _ _ _ M O). nia.
Qed.
End Number.

(** ** Contractions *)

Lemma expansion_numbers : forallb (fun kv => length (word_segments (snd kv)) <=? 3) contraction_mappings = true.
Proof. vm_compute. reflexivity. Qed.

Lemma expanded_number t : 1 <= length (expand_token go_unicode words_scan contraction_mappings t) <= 3.
Proof.
  unfold expand_token. destruct (lookup_expansion _ _ _) as [e|] eqn:E; [|cbn; lia].
  assert (N : length (map (piece_token go_unicode) (seg words_scan e)) <= 3).
  { rewrite map_length. assert (I : exists k, In (k, e) contraction_mappings).
    { unfold lookup_expansion in E. destruct (assoc _ _) as [v|] eqn:A; [injection E as <-; eexists; apply assoc_In, A|eexists; apply assoc_In, E]. }
    destruct I as (k & I). pose proof expansion_numbers as T. rewrite forallb_forall in T. apply T in I. apply Nat.leb_le in I. exact I. }
  destruct (map _ _) as [|x xs]; cbn in *; lia.
Qed.

Lemma contractions_number l : length l <= length (flat_map (expand_token go_unicode words_scan contraction_mappings) l) <= 3 * length l.
Proof.
  induction l as [|t l IH]; [cbn; lia|]. cbn [flat_map]. rewrite app_length. pose proof (expanded_number t). cbn [length]. lia.
Qed.

Lemma C110_contractions_lemma : at_most 3 (Contractions go_unicode words_scan contraction_mappings) /\
  (forall k, at_most k (Contractions go_unicode words_scan contraction_mappings) -> 3 <= k) /\
  forall s l o, Yields s l -> Yields (Contractions go_unicode words_scan contraction_mappings s) o -> length l <= length o.
Proof.
  assert (Y : forall s l, Yields s l -> Yields (Contractions go_unicode words_scan contraction_mappings s) (flat_map (expand_token go_unicode words_scan contraction_mappings) l)).
  { intros s l H. apply Contractions_yields; auto using words_scan_ok. reflexivity. }
  split; [|split].
  - apply (at_most_complete go_unicode words_scan words_scan_ok go_comma); [apply expand_lib|]. intros s l o H O.
    rewrite (Yields_inj _ _ _ O (Y _ _ H)). apply contractions_number.
  - intros k (A & _). specialize (A _ _ _ (source_yields [tok "can't"%string]) (Y _ _ (source_yields _))).
    assert (E : length (flat_map (expand_token go_unicode words_scan contraction_mappings) [tok "can't"%string]) = 3) by (vm_compute; reflexivity).
    rewrite E in A. cbn in A. lia.
  - intros s l o H O. rewrite (Yields_inj _ _ _ O (Y _ _ H)). apply contractions_number.
Qed.

(** ** The command *)
Local Open Scope string_scope.

Lemma C110_command_lemma c a : Forall (fun x => In x plain_flags) a -> forall s x, prints c (a ++ ["-ascii"; "-count"]) s x <-> prints c (a ++ ["-count"]) s x.
Proof.
  intros H s x.
  assert (H' : Forall (fun x => In x plain_flags) (a ++ ["-ascii"])) by (apply Forall_app; split; [exact H|constructor; [cbn; auto 10|constructor]]).
  assert (E : forall l, processed go_unicode words_scan (map (filter_of_flag c) a) s l -> exists o, processed go_unicode words_scan (map (filter_of_flag c) (a ++ ["-ascii"])) s o /\ List.length o = List.length l).
  { intros l Y. destruct (changing_map go_unicode (Fold go_unicode) (CH_fold _)) as (f & T & _). exists (map f l). split; [|apply map_length].
    unfold processed. rewrite map_app. unfold ApplyFilters. rewrite fold_left_app. cbn [map fold_left]. apply (T _ _ Y). }
  change ["-ascii"; "-count"] with (["-ascii"] ++ ["-count"])%list. rewrite app_assoc.
  pose proof (tally_shown c _ _ _ H' (or_introl eq_refl) s x) as A. pose proof (tally_shown c _ _ _ H (or_introl eq_refl) s x) as B.
  cbv beta in A, B. rewrite A, B. clear A B. destruct (chain_yields (map (filter_of_flag c) a) s (flags_lib c a H)) as (l & Y). destruct (E l Y) as (o & Yo & L). split.
  - intros (o' & Yo' & d & D & X). rewrite (Yields_inj _ _ _ Yo' Yo), L in D. exists l. split; [exact Y|]. exists d. auto.
  - intros (l' & Yl' & d & D & X). rewrite (Yields_inj _ _ _ Yl' Y), <- L in D. exists o. split; [exact Yo|]. exists d. auto.
Qed.
