(** * BuildProofs: building the dictionary of a synonyms filter. *)

From Coq Require Import Permutation.
From Verif Require Import Base Utf8 Unicode Token Stream StreamSpec Queue Tokenizer Trie Synonyms FilterSpec SynSpec
  StreamProofs TokenProofs FilterProofs TrieProofs SynProofs.

(** ** Splitting a key *)

Definition commab (t : token) : bool := seqb (tvalue t) comma.

Lemma commab_spec t : commab t = true <-> is_comma t.
Proof. unfold commab, is_comma. apply seqb_eq. Qed.

Lemma commab_false t : commab t = false <-> ~ is_comma t.
Proof. rewrite <- commab_spec. destruct (commab t); intuition congruence. Qed.

Fixpoint pieces_of (cur : list token) (skip : bool) (todo : list token) : list (list token) :=
  match todo with
  | [] => [cur]
  | t :: r =>
    if skip && tspace t then pieces_of cur skip r
    else if commab t then cur :: pieces_of [] true r
    else pieces_of (cur ++ [t]) false r
  end.

Section Build.
Variable U : unicode.

Definition add_piece (c : string) (acc : trie * nat) (l : list token) : trie * nat :=
  (trie_Add U (fst acc) l c, updateMaxWords l (snd acc)).

Lemma split_loop_spec c todo : forall pre start skip acc,
  start <= length pre -> (skip = true -> start = length pre) ->
  let '(start', acc') := split_loop U (pre ++ todo) c todo (length pre) start skip acc in
  add_piece c acc' (skipn start' (pre ++ todo)) =
  fold_left (add_piece c) (pieces_of (skipn start pre) skip todo) acc.
Proof.
  induction todo as [|t todo IH]; intros pre start skip acc H Hs.
  - cbn [split_loop pieces_of fold_left]. rewrite app_nil_r. reflexivity.
  - cbn [split_loop pieces_of]. fold (commab t).
    replace (pre ++ t :: todo) with ((pre ++ [t]) ++ todo) by (rewrite <- app_assoc; reflexivity).
    replace (S (length pre)) with (length (pre ++ [t])) by (rewrite app_length; simpl; lia).
    destruct (skip && tspace t) eqn:E1.
    + apply andb_prop in E1. destruct E1 as [-> _]. rewrite (Hs eq_refl).
      replace (S (length pre)) with (length (pre ++ [t])) by (rewrite app_length; simpl; lia).
      specialize (IH (pre ++ [t]) (length (pre ++ [t])) true acc ltac:(lia) ltac:(auto)).
      rewrite !skipn_all in *. exact IH.
    + destruct (commab t) eqn:E2.
      * specialize (IH (pre ++ [t]) (length (pre ++ [t])) true
          (trie_Add U (fst acc) (slice ((pre ++ [t]) ++ todo) start (length pre)) c,
           updateMaxWords (slice ((pre ++ [t]) ++ todo) start (length pre)) (snd acc)) ltac:(lia) ltac:(auto)).
        rewrite skipn_all in IH. cbn [fold_left].
        assert (Sl : slice ((pre ++ [t]) ++ todo) start (length pre) = skipn start pre).
        { unfold slice. rewrite <- app_assoc. rewrite skipn_app. rewrite firstn_app. rewrite skipn_length.
          rewrite firstn_all2 by (rewrite skipn_length; lia). rewrite Nat.sub_diag. rewrite app_nil_r. reflexivity. }
        rewrite Sl in *. exact IH.
      * specialize (IH (pre ++ [t]) start false acc ltac:(rewrite app_length; lia) ltac:(discriminate)).
        assert (Sk : skipn start (pre ++ [t]) = skipn start pre ++ [t]).
        { rewrite skipn_app. replace (start - length pre) with 0 by lia. reflexivity. }
        rewrite Sk in IH. exact IH.
Qed.

Lemma pieces_separated todo : forall sp cur skip,
  (forall t, In t todo -> is_comma t -> tspace t = false) ->
  (forall t, In t (sp ++ cur) -> ~ is_comma t) -> (forall t, In t sp -> tspace t = true) ->
  (skip = true -> cur = []) -> (forall t r, cur = t :: r -> tspace t = false) -> (cur = [] -> skip = true) ->
  exists pieces, separated is_comma (sp ++ cur ++ todo) pieces /\ Forall2 trimmed pieces (pieces_of cur skip todo).
Proof.
  induction todo as [|t todo IH]; intros sp cur skip NS NC SP SK HD KS.
  - exists [sp ++ cur]. rewrite app_nil_r. split; [apply Sep_last; exact NC|]. constructor; [|constructor].
    exists sp. auto.
  - assert (NS' : forall x, In x todo -> is_comma x -> tspace x = false) by (intros; apply NS; [right|]; assumption).
    cbn [pieces_of]. destruct (skip && tspace t) eqn:E1.
    + apply andb_prop in E1. destruct E1 as [-> St]. rewrite (SK eq_refl) in *. cbn [app] in *. rewrite app_nil_r in NC.
      destruct (IH (sp ++ [t]) [] true) as (pieces & A & B); auto.
      * rewrite app_nil_r. intros x Hx. apply in_app_or in Hx. destruct Hx as [Hx|[<-|[]]]; [apply NC, Hx|].
        intros C. rewrite (NS t ltac:(left; reflexivity) C) in St. discriminate.
      * intros x Hx. apply in_app_or in Hx. destruct Hx as [Hx|[<-|[]]]; auto.
      * exists pieces. rewrite <- app_assoc in A. cbn [app] in A. auto.
    + destruct (commab t) eqn:E2.
      * apply commab_spec in E2. destruct (IH [] [] true) as (pieces & A & B); auto; try (intros ? []); try (intros; discriminate).
        exists ((sp ++ cur) :: pieces). split.
        -- rewrite app_assoc. apply Sep_more; auto.
        -- constructor; [|exact B]. exists sp. auto.
      * apply commab_false in E2.
        destruct (IH sp (cur ++ [t]) false) as (pieces & A & B); auto; try discriminate.
        -- rewrite app_assoc. intros x Hx. apply in_app_or in Hx. destruct Hx as [Hx|[<-|[]]]; auto.
        -- intros x r Hx. destruct cur as [|y cur]; cbn [app] in Hx; injection Hx as -> Hx; [|eapply HD; reflexivity].
           rewrite (KS eq_refl) in E1. exact E1.
        -- intros C. destruct cur; discriminate.
        -- exists pieces. rewrite <- app_assoc in A. auto.
Qed.

(** [separated] and [trimmed] are functional. *)
Lemma separated_inj {A} (sep : A -> Prop) l p1 : separated sep l p1 -> forall p2, separated sep l p2 -> p1 = p2.
Proof.
  assert (G : forall a s l a' s' l', (forall x : A, In x a -> ~ sep x) -> sep s -> (forall x, In x a' -> ~ sep x) -> sep s' ->
    a ++ s :: l = a' ++ s' :: l' -> a = a' /\ s = s' /\ l = l').
  { induction a as [|x a IH]; intros s l0 [|y a'] s' l' N1 S1 N2 S2 E; cbn in E; injection E as E1 E2.
    - auto.
    - subst. exfalso. apply (N2 y); [left; reflexivity|exact S1].
    - subst. exfalso. apply (N1 s'); [left; reflexivity|exact S2].
    - subst. destruct (IH s l0 a' s' l') as (-> & -> & ->); auto; intros z Hz; [apply N1|apply N2]; right; exact Hz. }
  induction 1 as [l N|a s l r N S H IH]; intros p2 H2; inversion H2; subst.
  - reflexivity.
  - exfalso. match goal with X : sep ?s |- _ => apply (N s); [apply in_or_app; right; left; reflexivity|exact X] end.
  - exfalso. match goal with X : forall x, In x (a ++ s :: l) -> ~ sep x |- _ => apply (X s); [apply in_or_app; right; left; reflexivity|exact S] end.
  - match goal with E : _ ++ _ :: _ = _ ++ _ :: _ |- _ => symmetry in E; destruct (G _ _ _ _ _ _ N S ltac:(eassumption) ltac:(eassumption) E) as (-> & -> & ->) end.
    f_equal. apply IH. assumption.
Qed.

Lemma trimmed_inj l l1 l2 : trimmed l l1 -> trimmed l l2 -> l1 = l2.
Proof.
  intros (sp & -> & S1 & H1) (sp2 & E & S2 & H2). revert sp2 S2 E. induction sp as [|x sp IH]; intros [|y sp2] S2 E; cbn in E.
  - exact E.
  - exfalso. destruct l1 as [|z l1]; [discriminate|]. injection E as -> E. specialize (S2 y (or_introl eq_refl)).
    rewrite (H1 y l1 eq_refl) in S2. discriminate.
  - exfalso. subst l2. specialize (S1 x (or_introl eq_refl)). rewrite (H2 x _ eq_refl) in S1. discriminate.
  - injection E as -> E. apply (IH ltac:(intros; apply S1; right; assumption) sp2); [intros; apply S2; right; assumption|exact E].
Qed.

Lemma Forall2_inj {A B} (R : A -> B -> Prop) : (forall a b1 b2, R a b1 -> R a b2 -> b1 = b2) ->
  forall l l1 l2, Forall2 R l l1 -> Forall2 R l l2 -> l1 = l2.
Proof.
  intros H l l1 l2 F. revert l2. induction F; intros l2 F2; inversion F2; subst; [reflexivity|]. f_equal; eauto.
Qed.

Lemma entries_of_inj l c D1 D2 : entries_of l c D1 -> entries_of l c D2 -> D1 = D2.
Proof.
  intros (p1 & s1 & A1 & B1 & ->) (p2 & s2 & A2 & B2 & ->).
  rewrite (separated_inj _ _ _ A1 _ A2) in B1. rewrite (Forall2_inj _ trimmed_inj _ _ _ B1 B2). reflexivity.
Qed.

Lemma dictionary_of_inj (toks : string -> list token -> Prop) ms D1 : (forall k l1 l2, toks k l1 -> toks k l2 -> l1 = l2) ->
  dictionary_of toks ms D1 -> forall D2, dictionary_of toks ms D2 -> D1 = D2.
Proof.
  intros T. induction 1 as [|k c ms l D1 D2 A B C IH]; intros D' H; inversion H; subst; [reflexivity|].
  match goal with X : toks k ?l2 |- _ => lazymatch l2 with l => fail | _ => rewrite (T k _ _ A X) in * end end.
  f_equal; [eapply entries_of_inj; eassumption|]. auto.
Qed.

(** ** Adding the entries *)

Definition add_entries (acc : trie * nat) (D : dictionary) : trie * nat :=
  fold_left (fun acc e => add_piece (snd e) acc (fst e)) D acc.

Lemma fold_add_piece c ps : forall acc,
  fold_left (add_piece c) ps acc = add_entries acc (map (fun l => (l, c)) ps).
Proof. induction ps as [|p ps IH]; intros acc; [reflexivity|]. cbn. apply IH. Qed.

Lemma count_words_in l : count_words l = words_in l.
Proof. unfold count_words, words_in. f_equal. apply filter_ext. intros t. destruct (tpunct t), (tspace t); reflexivity. Qed.

Definition wide (base : nat) (D : dictionary) (n : nat) : Prop :=
  base <= n /\ (forall l c, In (l, c) D -> words_in l <= n) /\ (n = base \/ exists l c, In (l, c) D /\ words_in l = n).

Lemma add_entries_spec ic ig D : forall acc D0 base,
  repr U ic ig (fst acc) D0 -> wide base D0 (snd acc) ->
  repr U ic ig (fst (add_entries acc D)) (D0 ++ D) /\ wide base (D0 ++ D) (snd (add_entries acc D)).
Proof.
  induction D as [|[l c] D IH]; intros acc D0 base R W; [rewrite app_nil_r; auto|].
  change (add_entries acc ((l, c) :: D)) with (add_entries (add_piece c acc l) D).
  replace (D0 ++ (l, c) :: D) with ((D0 ++ [(l, c)]) ++ D) by (rewrite <- app_assoc; reflexivity).
  apply IH; [apply repr_Add, R|].
  unfold add_piece. cbn [snd]. unfold updateMaxWords. rewrite count_words_in.
  destruct W as (W1 & W2 & W3). destruct (Nat.ltb_spec (snd acc) (words_in l)) as [L|L]; split.
  - lia.
  - split.
    + intros l' c' H. apply in_app_or in H. destruct H as [H|[H|[]]]; [specialize (W2 _ _ H); lia|]. injection H as -> ->. lia.
    + right. exists l, c. split; [apply in_or_app; right; left; reflexivity|reflexivity].
  - lia.
  - split.
    + intros l' c' H. apply in_app_or in H. destruct H as [H|[H|[]]]; [apply (W2 _ _ H)|]. injection H as -> ->. lia.
    + destruct W3 as [W3|(l' & c' & W3 & W4)]; [auto|]. right. exists l', c'. split; [apply in_or_app; left; exact W3|exact W4].
Qed.

Variable scan : oracle.
Hypothesis SC : scanner_ok scan.
Hypothesis CS : uIsSpace U 44 = false.

Notation key_tokens := (fun k l => Yields (TokenizeString U scan k) l).

Lemma key_tokens_inj : forall k l1 l2, key_tokens k l1 -> key_tokens k l2 -> l1 = l2.
Proof. intros k l1 l2. apply Yields_inj. Qed.

Lemma comma_not_space t : is_comma t -> (exists v, t = piece_token U v) -> tspace t = false.
Proof.
  intros C (v & ->). unfold is_comma in C. rewrite piece_token_value in C. subst v.
  unfold piece_token. rewrite NewToken_uncached. unfold new_token_uncached.
  change (Nat.eqb (String.length ",") 0) with false. cbv iota. change (seqb "," crlf) with false. cbv iota.
  cbn [tspace]. change (runes ",") with [44%N]. cbn [all_runes]. rewrite CS. reflexivity.
Qed.

Lemma build_entry_ok k c acc : seg_fine scan k ->
  exists l D, key_tokens k l /\ entries_of l c D /\
  Returns (fun fuel => build_entry U scan fuel k c acc) (None, add_entries acc D).
Proof.
  intros F. set (l := map (piece_token U) (seg scan k)).
  assert (Y : key_tokens k l) by (apply TokenizeString_yields; assumption).
  destruct (pieces_separated l [] [] true) as (pieces & A & B); try (intros ? []); auto; try (intros; discriminate).
  { intros t Ht C. apply comma_not_space; [exact C|]. apply in_map_iff in Ht. destruct Ht as (v & <- & _). eauto. }
  exists l, (map (fun l' => (l', c)) (pieces_of [] true l)). split; [exact Y|]. split.
  - exists pieces, (pieces_of [] true l). auto.
  - destruct Y as (s' & E & _). destruct (ToSlice_emits _ _ _ _ E) as (s2 & _ & [n Hn]).
    exists n. intros m Hm. unfold build_entry. rewrite Hn by lia. cbn [bind].
    pose proof (split_loop_spec c l [] 0 true acc ltac:(cbn; lia) ltac:(auto)) as Sp. cbn [app length skipn] in Sp.
    destruct (split_loop U l c l 0 0 true acc) as [start acc1]. rewrite <- fold_add_piece. rewrite <- Sp. reflexivity.
Qed.

Lemma build_entry_bad k c acc e : serr (scan (mkReader k None)) = Some e ->
  Returns (fun fuel => build_entry U scan fuel k c acc) (Some e, acc).
Proof.
  intros F. assert (Y : Fails (TokenizeString U scan k) (map (piece_token U) (pending (scan (mkReader k None)))) e)
    by (apply Tokenize_fails; [apply (scan_nonempty _ SC)|exact F]).
  destruct Y as (s' & E). destruct (ToSlice_emits _ _ _ _ E) as (s2 & _ & [n Hn]).
  exists n. intros m Hm. unfold build_entry. rewrite Hn by lia. reflexivity.
Qed.

Lemma build_loop_ok ms : forall acc, (forall k c, In (k, c) ms -> seg_fine scan k) ->
  exists D, dictionary_of key_tokens ms D /\
  Returns (fun fuel => build_loop U scan fuel ms acc) (None, add_entries acc D).
Proof.
  induction ms as [|[k c] ms IH]; intros acc H.
  - exists []. split; [constructor|]. apply Returns_ret.
  - destruct (build_entry_ok k c acc (H k c ltac:(left; reflexivity))) as (l & D1 & Y & E & [n1 R1]).
    destruct (IH (add_entries acc D1) ltac:(intros; eapply H; right; eassumption)) as (D2 & Dd & [n2 R2]).
    exists (D1 ++ D2). split; [econstructor; eassumption|].
    exists (Nat.max n1 n2). intros m Hm. cbn [build_loop]. rewrite R1 by lia. cbn [bind]. rewrite R2 by lia.
    unfold add_entries. rewrite fold_left_app. reflexivity.
Qed.

(** The first key that cannot be tokenized decides. *)
Lemma build_loop_bad ms1 : forall k c ms2 e acc, (forall k c, In (k, c) ms1 -> seg_fine scan k) ->
  serr (scan (mkReader k None)) = Some e -> exists acc',
  Returns (fun fuel => build_loop U scan fuel (ms1 ++ (k, c) :: ms2) acc) (Some e, acc').
Proof.
  induction ms1 as [|[k1 c1] ms1 IH]; intros k c ms2 e acc H F.
  - destruct (build_entry_bad k c acc e F) as [n R]. exists acc. exists n. intros m Hm. cbn [app build_loop]. rewrite R by lia. reflexivity.
  - destruct (build_entry_ok k1 c1 acc (H k1 c1 ltac:(left; reflexivity))) as (l & D1 & _ & _ & [n1 R1]).
    destruct (IH k c ms2 e (add_entries acc D1) ltac:(intros; eapply H; right; eassumption) F) as (acc' & [n2 R2]).
    exists acc', (Nat.max n1 n2). intros m Hm. cbn [app build_loop]. rewrite R1 by lia. cbn [bind]. rewrite R2 by lia. reflexivity.
Qed.

Lemma build_ok ms ic ig : (forall k c, In (k, c) ms -> seg_fine scan k) ->
  exists D tr n, dictionary_of key_tokens ms D /\
  Returns (fun fuel => build U scan fuel (mkConfig ms ic ig)) (None, mkBuilt (Some tr) n) /\
  repr U ic ig tr D /\ widest D n.
Proof.
  intros H. destruct (build_loop_ok ms (trie_New ic ig, 1) H) as (D & Dd & [n R]).
  destruct (add_entries_spec ic ig D (trie_New ic ig, 1) [] 1) as (A & B).
  - apply repr_New.
  - split; [apply le_n|]. split; [intros ? ? []|auto].
  - exists D, (fst (add_entries (trie_New ic ig, 1) D)), (snd (add_entries (trie_New ic ig, 1) D)).
    split; [exact Dd|]. split; [|split; [exact A|exact B]].
    exists n. intros m Hm. unfold build. cbn [cf_mappings cf_ignoreCase cf_ignoreRunes]. rewrite R by lia. reflexivity.
Qed.

Lemma build_bad ms1 k c ms2 e ic ig : (forall k c, In (k, c) ms1 -> seg_fine scan k) ->
  serr (scan (mkReader k None)) = Some e ->
  Returns (fun fuel => build U scan fuel (mkConfig (ms1 ++ (k, c) :: ms2) ic ig)) (Some e, mkBuilt None 0).
Proof.
  intros H F. destruct (build_loop_bad ms1 k c ms2 e (trie_New ic ig, 1) H F) as (acc' & [n R]).
  exists n. intros m Hm. unfold build. cbn [cf_mappings cf_ignoreCase cf_ignoreRunes]. rewrite R by lia. reflexivity.
Qed.

Lemma dictionary_fine ms D : dictionary_of key_tokens ms D -> forall k c, In (k, c) ms -> seg_fine scan k.
Proof.
  induction 1 as [|k c ms l D1 D2 A B C IH]; intros k' c' H; [destruct H|].
  destruct H as [H|H]; [injection H as <- <-|apply (IH _ _ H)].
  unfold seg_fine. destruct (serr (scan (mkReader k None))) as [e|] eqn:E; [|reflexivity].
  exfalso. eapply Yields_not_Fails; [exact A|]. apply Tokenize_fails; [apply (scan_nonempty _ SC)|exact E].
Qed.

(** What a successful build gives. *)
Lemma build_inv ms ic ig D err b : dictionary_of key_tokens ms D ->
  Returns (fun fuel => build U scan fuel (mkConfig ms ic ig)) (err, b) ->
  err = None /\ exists tr n, b = mkBuilt (Some tr) n /\ repr U ic ig tr D /\ widest D n.
Proof.
  intros Dd R. destruct (build_ok ms ic ig (dictionary_fine ms D Dd)) as (D' & tr & n & Dd' & R' & A & B).
  rewrite (dictionary_of_inj _ _ _ key_tokens_inj Dd _ Dd'). pose proof (Returns_inj _ _ _ R R') as E.
  injection E as -> ->. split; [reflexivity|]. exists tr, n. auto.
Qed.

(** ** Permutations *)

Lemma dictionary_perm ms1 ms2 D1 D2 : Permutation ms1 ms2 ->
  dictionary_of key_tokens ms1 D1 -> dictionary_of key_tokens ms2 D2 -> forall x, In x D1 -> In x D2.
Proof.
  intros P H1 H2 x Hx.
  assert (G1 : forall ms D, dictionary_of key_tokens ms D -> In x D ->
    exists k c l D0, In (k, c) ms /\ key_tokens k l /\ entries_of l c D0 /\ In x D0).
  { induction 1 as [|k c ms l Da Db A B C IH]; intros H; [destruct H|]. apply in_app_or in H. destruct H as [H|H].
    - exists k, c, l, Da. split; [left; reflexivity|auto].
    - destruct (IH H) as (k' & c' & l' & D0 & I & R). exists k', c', l', D0. split; [right; exact I|exact R]. }
  assert (G2 : forall ms D, dictionary_of key_tokens ms D -> forall k c l D0, In (k, c) ms -> key_tokens k l -> entries_of l c D0 -> In x D0 -> In x D).
  { induction 1 as [|k c ms l Da Db A B C IH]; intros k' c' l' D0 I Y E X; [destruct I|]. apply in_or_app. destruct I as [I|I].
    - injection I as <- <-. rewrite (key_tokens_inj _ _ _ Y A) in E. rewrite (entries_of_inj _ _ _ _ E B) in X. left; exact X.
    - right. eapply IH; eassumption. }
  destruct (G1 _ _ H1 Hx) as (k & c & l & D0 & I & Y & E & X).
  eapply (G2 _ _ H2 k c l D0); try eassumption. eapply Permutation_in; eassumption.
Qed.

End Build.

Definition conflict_free (U : unicode) (ic : bool) (ig : list N) (D : dictionary) : Prop :=
  forall l1 c1 l2 c2, In (l1, c1) D -> In (l2, c2) D -> spelled U ic ig l1 = spelled U ic ig l2 -> c1 = c2.

Lemma means_in U ic ig D p c : means U ic ig D p c -> exists l, In (l, c) D /\ spelled U ic ig l = p.
Proof. intros (a & l & b & -> & S & _). exists l. split; [apply in_or_app; right; left; reflexivity|exact S]. Qed.

Lemma means_free U ic ig D p c : conflict_free U ic ig D ->
  (means U ic ig D p c <-> exists l, In (l, c) D /\ spelled U ic ig l = p).
Proof.
  intros F. split; [apply means_in|]. intros (l & I & S).
  destruct (means_dec U ic ig D p) as [(c' & M)|N].
  - destruct (means_in _ _ _ _ _ _ M) as (l' & I' & S'). rewrite (F l c l' c' I I' ltac:(congruence)). exact M.
  - exfalso. assert (G : forall D, In (l, c) D -> exists c', means U ic ig D p c').
    { clear - S. induction D as [|[l0 c0] D IH] using rev_ind; intros I; [destruct I|]. apply in_app_or in I.
      destruct (list_eq_dec N.eq_dec (spelled U ic ig l0) p) as [E|E].
      - exists c0. apply means_snoc. left. auto.
      - destruct I as [I|[I|[]]]; [|injection I as -> ->; contradiction].
        destruct (IH I) as (c' & M). exists c'. apply means_snoc. right. auto. }
    destruct (G D I) as (c' & M). exact (N _ M).
Qed.

Lemma widest_ext D1 D2 n1 n2 : (forall x, In x D1 <-> In x D2) -> widest D1 n1 -> widest D2 n2 -> n1 = n2.
Proof.
  intros E (A1 & B1 & C1) (A2 & B2 & C2). apply Nat.le_antisymm.
  - destruct C1 as [->|(l & c & I & <-)]; [exact A2|]. eapply B2. apply E, I.
  - destruct C2 as [->|(l & c & I & <-)]; [exact A1|]. eapply B1. apply E, I.
Qed.

(** Filters with the same search behave the same. *)
Lemma syn_loop_ext U tr1 tr2 mw fuel k : (forall l, SearchCanonical U tr1 l = SearchCanonical U tr2 l) ->
  forall st, syn_loop U (mkBuilt (Some tr1) mw) fuel k st = syn_loop U (mkBuilt (Some tr2) mw) fuel k st.
Proof.
  intros E. induction k as [|k IH]; intros st; [reflexivity|]. cbn [syn_loop b_maxWords b_trie].
  destruct (fill fuel mw st) as [[[e|] st1]| |]; cbn [bind]; try reflexivity.
  destruct (Nat.eqb (q_len (y_buf st1)) 0); [reflexivity|].
  destruct (wordrun mw (y_buf st1)) as [[e|] run]; [reflexivity|].
  destruct (Nat.eqb (length run) 0); [reflexivity|]. rewrite E.
  destruct (SearchCanonical U tr2 run) as [[[|] c] n].
  - destruct (q_drop (y_buf st1) n); cbn [bind]; try reflexivity. apply IH.
  - destruct (q_popto (y_buf st1) (y_out st1)) as [[a0 b0]| |]; cbn [bind]; try reflexivity. apply IH.
Qed.

Lemma syn_next_ext U tr1 tr2 mw fuel st : (forall l, SearchCanonical U tr1 l = SearchCanonical U tr2 l) ->
  syn_next U (mkBuilt (Some tr1) mw) fuel st = syn_next U (mkBuilt (Some tr2) mw) fuel st.
Proof. intros E. unfold syn_next. rewrite (syn_loop_ext U tr1 tr2 mw fuel fuel E). reflexivity. Qed.

Lemma Same_closure {X} (step1 step2 : nat -> X -> outcome (result * X)) :
  (forall fuel x, step1 fuel x = step2 fuel x) -> forall tok err x, Same (closure step1 tok err x) (closure step2 tok err x).
Proof.
  intros E. cofix IH. intros tok err x. constructor; [reflexivity|reflexivity|].
  intros fuel. unfold Next. cbn [ts_next closure]. rewrite <- E.
  destruct (step1 fuel x) as [[r x']| |].
  - left. do 3 eexists. split; [reflexivity|]. split; [reflexivity|]. apply IH.
  - right; left. auto.
  - right; right. auto.
Qed.

Lemma syn_same U tr1 tr2 mw s : (forall l, SearchCanonical U tr1 l = SearchCanonical U tr2 l) ->
  Same (SynFilter U None (mkBuilt (Some tr1) mw) s) (SynFilter U None (mkBuilt (Some tr2) mw) s).
Proof. intros E. apply Same_closure. intros fuel x. apply syn_next_ext, E. Qed.
