(** * Lemmas behind C103 *)

From Verif Require Import Base Utf8 Unicode UnicodeData Token Stream StreamSpec ListSpec Tokenizer Html Words WordSplit Filters Ascii Trie Synonyms
  ContractionsTable FilterSpec SynSpec ChainSpec MarkupSpec Sources StreamProofs Utf8Proofs TokenProofs FilterProofs AsciiProofs ChainProofs
  WordsProofs PropTokenizerLemmas PropAsciiLemmas PropFiltersLemmas PropSigilLemmas PropTwitterLemmas PropSynLemmas PropSynLemmas2 PropSynLemmas3 PropLineLemmas.

Definition okay (t : token) : Prop := tvalue t = "@"%string \/ tvalue t = "#"%string -> wordb t = false.

Lemma made_okay t : made go_unicode t -> okay t.
Proof.
  intros M [E|E].
  - exact (proj1 (proj2 (handles_good go_unicode go_sane)) t M E).
  - exact (proj1 (proj2 (hashtags_good go_unicode go_sane)) t M E).
Qed.

Definition lets (p : token) (F : Filter) : Prop :=
  (forall s l, Yields s l -> exists o, Yields (F s) o /\ (Forall okay l -> Forall okay o)) /\
  (forall s a b sa sb, Forall okay a -> Yields s (a ++ p :: b) -> Yields sa a -> Yields sb b ->
   exists oa ob, Yields (F sa) oa /\ Yields (F sb) ob /\ Yields (F s) (oa ++ p :: ob)).

Lemma each_lets p F (g : token -> list token) : (forall s l, Yields s l -> Yields (F s) (flat_map g l)) ->
  (forall t, okay t -> Forall okay (g t)) -> g p = [p] -> lets p F.
Proof.
  intros Y O G. split.
  - intros s l Ys. exists (flat_map g l). split; [auto|]. intros H. clear Ys. induction H; cbn; [constructor|]. apply Forall_app. split; auto.
  - intros s a b sa sb _ Ys Ya Yb. exists (flat_map g a), (flat_map g b). split; [auto|]. split; [auto|].
    replace (flat_map g a ++ p :: flat_map g b) with (flat_map g (a ++ p :: b)); [auto|].
    rewrite flat_map_app. cbn [flat_map]. now rewrite G.
Qed.

Lemma flat_map_single {A B} (f : A -> B) l : flat_map (fun x => [f x]) l = map f l.
Proof. induction l; cbn; congruence. Qed.

Lemma one_lets p f : (forall t, f t <> None) -> (forall t t', f t = Some t' -> t' = t \/ made go_unicode t') -> f p = Some p -> lets p (Mapper [f]).
Proof.
  intros T M P. assert (T' : forall g t, In g [f] -> g t <> None) by (intros g t [<-|[]]; apply T).
  apply each_lets with (g := fun t => [force_map [f] t]).
  - intros s l Y. rewrite flat_map_single. apply (mapper_transforms [f] T'), Y.
  - intros t O. constructor; [|constructor]. unfold force_map. cbn. destruct (f t) as [t'|] eqn:E; cbn; [|exact O].
    destruct (M _ _ E) as [->|X]; [exact O|now apply made_okay].
  - unfold force_map. cbn. now rewrite P.
Qed.

Lemma filter_flat_map {A} (q : A -> bool) l : flat_map (fun t => if q t then [t] else []) l = filter q l.
Proof. induction l as [|x l IH]; cbn; [reflexivity|]. destruct (q x); cbn; congruence. Qed.

Lemma select_lets p (q : token -> bool) F : transforms F (filter q) -> q p = true -> lets p F.
Proof.
  intros (T & _) Q. apply each_lets with (g := fun t => if q t then [t] else []).
  - intros s l Y. rewrite filter_flat_map. auto.
  - intros t O. destruct (q t); repeat constructor. exact O.
  - now rewrite Q.
Qed.

Lemma sigil_lets p sigil legal : good go_unicode sigil legal -> sigil = "@"%string \/ sigil = "#"%string ->
  tvalue p <> sigil -> legal (tvalue p) = false -> tpunct p = true -> lets p (Sigil go_unicode sigil legal).
Proof.
  intros (NE & _ & _) SG NS L P.
  assert (Q : seqb (tvalue p) sigil = false) by (destruct (seqb (tvalue p) sigil) eqn:Q; [apply seqb_eq in Q; contradiction|reflexivity]).
  split.
  - intros s l Y. exists (sigil_out go_unicode sigil legal false None l). split; [now apply Sigil_yields|]. intros M.
    assert (X : forall n l prev, length l <= n -> Forall okay l -> Forall okay (sigil_out go_unicode sigil legal false prev l)); [|exact (X _ l None (le_n _) M)].
    clear - NE. induction n as [|n IH]; intros k prev Lk Mk; [destruct k; [constructor|cbn in Lk; lia]|].
    destruct k as [|c k]; [constructor|]. cbn in Lk. inversion Mk; subst. cbn [sigil_out]. destruct (_ && _).
    + destruct k as [|d k]; [now constructor|]. cbn in Lk. inversion H2; subst. destruct (legal (tvalue d)).
      * constructor; [now apply made_okay, made_merged|]. apply IH; [lia|assumption].
      * do 2 (constructor; [assumption|]). apply IH; [lia|assumption].
    + constructor; [assumption|]. apply IH; [lia|assumption].
  - intros s a b sa sb Ma Ys Ya Yb.
    exists (sigil_out go_unicode sigil legal false None a), (sigil_out go_unicode sigil legal false None b).
    split; [now apply Sigil_yields|]. split; [now apply Sigil_yields|].
    rewrite <- (sigil_out_cutP go_unicode okay sigil legal p) with (n := length a); auto; [now apply Sigil_yields|].
    intros c O E. apply O. rewrite E. destruct SG; auto.
Qed.

Lemma syn_lets p ms ic ig D b : tpunct p = true -> dictionary_of (key_tokens go_unicode words_scan) ms D -> built_from go_unicode words_scan ms ic ig b ->
  lets p (SynFilter go_unicode None b).
Proof.
  intros P H H0. destruct (C38_lemma go_unicode words_scan words_scan_ok go_comma _ _ _ _ _ H H0) as (n & _ & Y). split.
  - intros s l Ys. destruct (Y _ _ Ys) as (o & R & Yo). exists o. split; [exact Yo|]. intros M. clear Ys Yo Y H H0. induction R; [constructor| | |].
    + inversion M; subst. constructor; auto.
    + inversion M; subst. constructor; auto.
    + apply Forall_app. split; [|apply IHR].
      * destruct H1 as [(_ & ->)|(m & (_ & _ & Lm) & ->)]; [constructor|]. constructor; [eapply made_okay, new_made; exact Lm|constructor].
      * apply Forall_forall. intros x I. rewrite Forall_forall in M. apply M. rewrite <- (firstn_skipn k (t :: l)). apply in_or_app. now right.
  - intros s u v su sv _ Ys Yu Yv. destruct (C39_lemma go_unicode words_scan words_scan_ok go_comma _ _ _ _ _ H H0) as (C1 & _).
    exact (C1 s u p v su sv P Ys Yu Yv).
Qed.

(** ** Markup *)

Lemma angle_runes r : runes ("<" ++ r) = 60%N :: runes r.
Proof. cbn [append]. now rewrite runes_cons. Qed.

Lemma angle_handle r : legalHandle ("<" ++ r) = false.
Proof.
  destruct (legalHandle ("<" ++ r)) eqn:E; [|reflexivity]. exfalso. apply C33_handle_lemma in E. rewrite angle_runes in E. destruct E as [_ E].
  inversion E as [|? ? X _]; subst. unfold handle_rune in X. lia.
Qed.

Lemma angle_hashtag r : legalHashtag go_unicode ("<" ++ r) = false.
Proof.
  destruct (legalHashtag go_unicode ("<" ++ r)) eqn:E; [|reflexivity]. exfalso. apply C33_hashtag_lemma in E. rewrite angle_runes in E.
  destruct E as [(x & E & X)|(_ & E)].
  - injection E as <- _. vm_compute in X. discriminate.
  - inversion E as [|? ? [X|[X|X]] _]; subst; vm_compute in X; discriminate.
Qed.

Lemma angle_lower r : exists r', strings_ToLower go_unicode ("<" ++ r) = ("<" ++ r')%string.
Proof.
  unfold strings_ToLower. destruct (is_ascii_string ("<" ++ r)).
  - cbn. eexists. reflexivity.
  - rewrite angle_runes. cbn [map encode]. eexists. reflexivity.
Qed.

Lemma angle_expansion r e : ~ expansion go_unicode contraction_mappings ("<" ++ r) e.
Proof.
  assert (T : forall x v, ~ In (("<" ++ x)%string, v) contraction_mappings).
  { intros x v I. assert (C : forallb (fun kv => match fst kv with String "<" _ => false | _ => true end) contraction_mappings = true) by (vm_compute; reflexivity).
    rewrite forallb_forall in C. apply C in I. discriminate. }
  intros [I|[_ I]]; [now apply T in I|]. destruct (angle_lower r) as (r' & E). rewrite E in I. now apply T in I.
Qed.

Lemma leaves_lets m r F : m = ("<" ++ r)%string -> leaves m F -> lets (mkToken m true false false) F.
Proof.
  intros E [NF| | | |stem NE|ms ic ig D b Dd B|pred Hp|words ic Hw|isN nrm Hn HN].
  - apply one_lets.
    + intros t. destruct (folder_total go_unicode t) as (t' & M & _). unfold maps_to in M. cbn in M. congruence.
    + intros t t'. unfold folder. destruct (FoldString (tvalue t)) as [v [|]]; [right; eapply new_made; eassumption|left; congruence].
    + unfold folder. cbn [tvalue]. destruct (C20_exact_lemma m) as (o & _ & _ & _ & X). now rewrite (X NF).
  - apply each_lets with (g := expand_token go_unicode words_scan contraction_mappings).
    + intros s l Y. apply Contractions_yields; auto using words_scan_ok. reflexivity.
    + intros t O. unfold expand_token. destruct (lookup_expansion go_unicode contraction_mappings (tvalue t)) as [x|]; [|repeat constructor; exact O].
      destruct (map (piece_token go_unicode) (seg words_scan x)) as [|y q] eqn:Q; [repeat constructor; exact O|].
      rewrite <- Q. apply Forall_forall. intros z I. apply in_map_iff in I as (p' & <- & I). eapply made_okay, (new_made go_unicode p' false), piece_token_ok.
      apply (seg_nonempty words_scan words_scan_ok x p' I).
    + unfold expand_token, lookup_expansion. cbn [tvalue]. pose proof (angle_expansion r) as H. rewrite <- E in H.
      destruct (assoc m contraction_mappings) as [x|] eqn:A; [exfalso; apply (H x); left; now apply assoc_In|].
      destruct (assoc (strings_ToLower go_unicode m) contraction_mappings) as [x|] eqn:B; [|reflexivity].
      exfalso. apply (H x). right. split; [now apply assoc_none|now apply assoc_In].
  - apply sigil_lets; auto using handles_good, go_sane; cbn [tvalue]; rewrite E; [discriminate|apply angle_handle].
  - apply sigil_lets; auto using hashtags_good, go_sane; cbn [tvalue]; rewrite E; [discriminate|apply angle_hashtag].
  - apply one_lets.
    + intros t. unfold stem_token. destruct (tpunct t || tspace t); [discriminate|].
      destruct (seqb (stem (tvalue t) true) (tvalue t)) eqn:Q; [discriminate|].
      destruct (NewToken_cons go_unicode (stem (tvalue t) true) true) as (t' & ->); [|discriminate].
      intros C. apply not_true_iff_false in Q. apply Q, seqb_eq. rewrite C. symmetry. auto.
    + intros t t'. unfold stem_token. destruct (tpunct t || tspace t); [left; congruence|]. cbv zeta.
      destruct (seqb _ _); [left; congruence|right; eapply new_made; eassumption].
    + reflexivity.
  - eapply syn_lets; eauto.
  - eapply select_lets; [apply where_transforms|assumption].
  - eapply select_lets; [apply stop_transforms|]. unfold stop_pred. cbn [tvalue]. apply negb_true_iff. apply not_true_iff_false. intros X.
    apply smem_In in X. apply in_map_iff in X as (w & X & I). specialize (Hw w I). unfold stop_key in X. destruct ic; congruence.
  - apply one_lets.
    + intros t. unfold norm_token. destruct (isN (tvalue t)) eqn:Q; [discriminate|].
      destruct (NewToken_cons go_unicode (nrm (tvalue t)) true) as (t' & ->); [auto|discriminate].
    + intros t t'. unfold norm_token. destruct (isN (tvalue t)); [left; congruence|right; eapply new_made; eassumption].
    + unfold norm_token. cbn [tvalue]. now rewrite HN.
Qed.

Lemma chain_lets p fs : Forall (lets p) fs -> lets p (ApplyFilters fs).
Proof.
  induction 1 as [|F fs [T C] Hs [T' C']].
  - split; [intros s l Y; exists l; auto|]. intros s a b sa sb _ Ys Ya Yb. exists a, b. auto.
  - split.
    + intros s l Y. destruct (T _ _ Y) as (o & Yo & Mo). destruct (T' _ _ Yo) as (o' & Yo' & Mo'). exists o'. split; [exact Yo'|auto].
    + intros s a b sa sb Ma Ys Ya Yb. destruct (C _ _ _ _ _ Ma Ys Ya Yb) as (oa & ob & Yoa & Yob & Yo).
      destruct (T _ _ Ya) as (oa' & Ya' & M). rewrite <- (Yields_inj _ _ _ Yoa Ya') in M.
      exact (C' _ _ _ _ _ (M Ma) Yo Yoa Yob).
Qed.

(** ** Documents *)

Lemma groups_parent U scan hs : forall p q, raw_parent p = raw_parent q -> html_groups U scan p hs = html_groups U scan q hs.
Proof.
  induction hs as [|h hs IH]; intros p q E; [reflexivity|]. cbn [html_groups]. unfold html_group. rewrite E. f_equal. apply IH.
  unfold parent_after. destruct (h_type h), (h_atom h); auto.
Qed.

Lemma groups_okay hs : forall p, raw_parent p = false -> (forall h, In h hs -> ~ raw_start h) -> Forall okay (concat (html_groups go_unicode words_scan p hs)).
Proof.
  induction hs as [|h hs IH]; intros p R N; [constructor|]. cbn [html_groups concat]. apply Forall_app. split.
  - unfold html_group. rewrite R. destruct (h_type h); try (repeat constructor; intros _; reflexivity).
    apply Forall_forall. intros t I. apply in_map_iff in I as (x & <- & I). eapply made_okay, (new_made go_unicode x false), piece_token_ok.
    apply (seg_nonempty words_scan words_scan_ok (h_string h) x I).
  - apply IH; [|intros; apply N; now right]. destruct (raw_parent (parent_after p h)) eqn:E; [|reflexivity].
    apply parent_after_raw in E as [E|E]; [congruence|]. exfalso. now apply (N h (or_introl eq_refl)).
Qed.

Lemma fine_texts hs : no_empty_text hs -> Forall (text_fine words_scan) hs.
Proof. intros H. apply Forall_forall. intros h I T. split; [now apply H|reflexivity]. Qed.

Lemma cut_doc hs1 h hs2 : h_type h <> HText -> (forall x, In x (hs1 ++ [h]) -> ~ raw_start x) ->
  concat (html_groups go_unicode words_scan AtomZero (hs1 ++ h :: hs2)) =
  concat (html_groups go_unicode words_scan AtomZero hs1) ++ markup_token h :: concat (html_groups go_unicode words_scan AtomZero hs2).
Proof.
  intros T N. rewrite html_groups_app, concat_app. f_equal. cbn [html_groups concat].
  set (p := fold_left parent_after hs1 AtomZero).
  assert (G : html_group go_unicode words_scan p h = [markup_token h]) by (unfold html_group; destruct (h_type h); try reflexivity; congruence).
  rewrite G. cbn [app]. do 2 f_equal. apply groups_parent.
  change (raw_parent (fold_left parent_after [h] p) = false). unfold p. rewrite <- fold_left_app.
  destruct (raw_parent (fold_left parent_after (hs1 ++ [h]) AtomZero)) eqn:R; [|reflexivity].
  apply parent_raw in R as [R|(x & I & R)]; [discriminate|]. exfalso. exact (N x I R).
Qed.

Lemma C103_cut fs hs1 h hs2 : markup h -> Forall (leaves (h_string h)) fs -> no_empty_text (hs1 ++ h :: hs2) ->
  (forall x, In x (hs1 ++ [h]) -> ~ raw_start x) ->
  exists oa ob, html_processed fs hs1 oa /\ html_processed fs hs2 ob /\ html_processed fs (hs1 ++ h :: hs2) (oa ++ markup_token h :: ob).
Proof.
  intros [T [r E]] L NE NR. assert (Ls : lets (markup_token h) (ApplyFilters fs)).
  { apply chain_lets. revert L. apply Forall_impl. intros F LF. now apply (leaves_lets _ r). }
  destruct Ls as [_ C].
  assert (Ya : Yields (TokenizeHTML go_unicode words_scan (mkHP hs1 None)) (concat (html_groups go_unicode words_scan AtomZero hs1))).
  { apply (html_yields _ _ words_scan_ok), fine_texts. intros x I. apply NE, in_or_app. now left. }
  assert (Yb : Yields (TokenizeHTML go_unicode words_scan (mkHP hs2 None)) (concat (html_groups go_unicode words_scan AtomZero hs2))).
  { apply (html_yields _ _ words_scan_ok), fine_texts. intros x I. apply NE, in_or_app. right. now right. }
  assert (Ys : Yields (TokenizeHTML go_unicode words_scan (mkHP (hs1 ++ h :: hs2) None)) (concat (html_groups go_unicode words_scan AtomZero (hs1 ++ h :: hs2)))).
  { now apply (html_yields _ _ words_scan_ok), fine_texts. }
  rewrite (cut_doc hs1 h hs2 T NR) in Ys.
  apply (C _ _ _ _ _ (groups_okay hs1 AtomZero eq_refl (fun x I => NR x (in_or_app _ _ _ (or_introl I)))) Ys Ya Yb).
Qed.

(** ** Every document: what goes before is as if the document ended there *)

Definition holds_at (p : token) (F : Filter) : Prop :=
  forall s a b sa, Yields s (a ++ p :: b) -> Yields sa a -> exists oa ob, Yields (F sa) oa /\ Yields (F s) (oa ++ p :: ob).

Lemma each_holds p F (g : token -> list token) : (forall s l, Yields s l -> Yields (F s) (flat_map g l)) -> g p = [p] -> holds_at p F.
Proof.
  intros Y G s a b sa Ys Ya. exists (flat_map g a), (flat_map g b). split; [auto|].
  replace (flat_map g a ++ p :: flat_map g b) with (flat_map g (a ++ p :: b)); [auto|].
  rewrite flat_map_app. cbn [flat_map]. now rewrite G.
Qed.

Lemma one_holds p f : (forall t, f t <> None) -> f p = Some p -> holds_at p (Mapper [f]).
Proof.
  intros T P. assert (T' : forall g t, In g [f] -> g t <> None) by (intros g t [<-|[]]; apply T).
  apply each_holds with (g := fun t => [force_map [f] t]).
  - intros s l Y. rewrite flat_map_single. apply (mapper_transforms [f] T'), Y.
  - unfold force_map. cbn. now rewrite P.
Qed.

Lemma select_holds p (q : token -> bool) F : transforms F (filter q) -> q p = true -> holds_at p F.
Proof.
  intros (T & _) Q. apply each_holds with (g := fun t => if q t then [t] else []).
  - intros s l Y. rewrite filter_flat_map. auto.
  - now rewrite Q.
Qed.

Lemma sigil_out_at U sigil legal p : seqb (tvalue p) sigil = false -> legal (tvalue p) = false ->
  forall n l prev b, length l <= n -> exists o, sigil_out U sigil legal false prev (l ++ p :: b) = sigil_out U sigil legal false prev l ++ p :: o.
Proof.
  intros NS NL. induction n as [|n IH]; intros l prev b L.
  - destruct l; [|cbn in L; lia]. cbn [app sigil_out]. rewrite NS, andb_false_r. eexists. reflexivity.
  - destruct l as [|c l]; [cbn [app sigil_out]; rewrite NS, andb_false_r; eexists; reflexivity|]. cbn in L.
    cbn [app sigil_out]. destruct (boundary_ok prev && seqb (tvalue c) sigil).
    + destruct l as [|d l]; cbn [app].
      * rewrite NL. eexists. reflexivity.
      * cbn in L. destruct (legal (tvalue d)).
        -- destruct (IH l (Some (merged U sigil d)) b) as (o & ->); [lia|]. exists o. reflexivity.
        -- destruct (IH l (Some c) b) as (o & ->); [lia|]. exists o. reflexivity.
    + destruct (IH l (Some c) b) as (o & ->); [lia|]. exists o. reflexivity.
Qed.

Lemma sigil_holds p sigil legal : good go_unicode sigil legal -> tvalue p <> sigil -> legal (tvalue p) = false -> holds_at p (Sigil go_unicode sigil legal).
Proof.
  intros (NE & _ & _) NS L s a b sa Ys Ya.
  assert (Q : seqb (tvalue p) sigil = false) by (destruct (seqb (tvalue p) sigil) eqn:Q; [apply seqb_eq in Q; contradiction|reflexivity]).
  destruct (sigil_out_at go_unicode sigil legal p Q L _ a None b (le_n _)) as (o & E).
  exists (sigil_out go_unicode sigil legal false None a), o. split; [now apply Sigil_yields|]. rewrite <- E. now apply Sigil_yields.
Qed.

Lemma leaves_holds m r F : m = ("<" ++ r)%string -> leaves m F -> holds_at (mkToken m true false false) F.
Proof.
  intros E Lv. destruct Lv as [NF| | | |stem NE|ms ic ig D b Dd B|pred Hp|words ic Hw|isN nrm Hn HN].
  - apply one_holds.
    + intros t. destruct (folder_total go_unicode t) as (t' & M & _). unfold maps_to in M. cbn in M. congruence.
    + unfold folder. cbn [tvalue]. destruct (C20_exact_lemma m) as (o & _ & _ & _ & X). now rewrite (X NF).
  - apply each_holds with (g := expand_token go_unicode words_scan contraction_mappings).
    + intros s l Y. apply Contractions_yields; auto using words_scan_ok. reflexivity.
    + unfold expand_token, lookup_expansion. cbn [tvalue]. pose proof (angle_expansion r) as H. rewrite <- E in H.
      destruct (assoc m contraction_mappings) as [x|] eqn:A; [exfalso; apply (H x); left; now apply assoc_In|].
      destruct (assoc (strings_ToLower go_unicode m) contraction_mappings) as [x|] eqn:B; [|reflexivity].
      exfalso. apply (H x). right. split; [now apply assoc_none|now apply assoc_In].
  - apply sigil_holds; auto using handles_good, go_sane; cbn [tvalue]; rewrite E; [discriminate|apply angle_handle].
  - apply sigil_holds; auto using hashtags_good, go_sane; cbn [tvalue]; rewrite E; [discriminate|apply angle_hashtag].
  - apply one_holds.
    + intros t. unfold stem_token. destruct (tpunct t || tspace t); [discriminate|].
      destruct (seqb (stem (tvalue t) true) (tvalue t)) eqn:Q; [discriminate|].
      destruct (NewToken_cons go_unicode (stem (tvalue t) true) true) as (t' & ->); [|discriminate].
      intros C. apply not_true_iff_false in Q. apply Q, seqb_eq. rewrite C. symmetry. auto.
    + reflexivity.
  - intros s u v su Ys Yu. destruct (C39_lemma go_unicode words_scan words_scan_ok go_comma _ _ _ _ _ Dd B) as (C1 & _).
    destruct (C1 s u (mkToken m true false false) v su (source v None) eq_refl Ys Yu (source_yields v)) as (oa & ob & Ya & _ & Y). exists oa, ob. auto.
  - eapply select_holds; [apply where_transforms|assumption].
  - eapply select_holds; [apply stop_transforms|]. unfold stop_pred. cbn [tvalue]. apply negb_true_iff. apply not_true_iff_false. intros X.
    apply smem_In in X. apply in_map_iff in X as (w & X & I). specialize (Hw w I). unfold stop_key in X. destruct ic; congruence.
  - apply one_holds.
    + intros t. unfold norm_token. destruct (isN (tvalue t)) eqn:Q; [discriminate|].
      destruct (NewToken_cons go_unicode (nrm (tvalue t)) true) as (t' & ->); [auto|discriminate].
    + unfold norm_token. cbn [tvalue]. now rewrite HN.
Qed.

Lemma chain_holds p fs : Forall (holds_at p) fs -> holds_at p (ApplyFilters fs).
Proof.
  induction 1 as [|F fs H Hs IH]; intros s a b sa Ys Ya; [exists a, b; auto|].
  destruct (H _ _ _ _ Ys Ya) as (oa & ob & Y1 & Y2). exact (IH _ _ _ _ Y2 Y1).
Qed.

Lemma doc_at hs1 h hs2 : h_type h <> HText ->
  exists b, concat (html_groups go_unicode words_scan AtomZero (hs1 ++ h :: hs2)) =
  concat (html_groups go_unicode words_scan AtomZero hs1) ++ markup_token h :: b.
Proof.
  intros T. rewrite html_groups_app, concat_app. cbn [html_groups concat]. eexists. f_equal.
  set (p := fold_left parent_after hs1 AtomZero).
  assert (G : html_group go_unicode words_scan p h = [markup_token h]) by (unfold html_group; destruct (h_type h); try reflexivity; congruence).
  rewrite G. reflexivity.
Qed.

Lemma doc_yields hs : no_empty_text hs -> Yields (TokenizeHTML go_unicode words_scan (mkHP hs None)) (concat (html_groups go_unicode words_scan AtomZero hs)).
Proof. intros H. now apply (html_yields _ _ words_scan_ok), fine_texts. Qed.

Lemma C103_kept fs hs1 h hs2 : markup h -> Forall (leaves (h_string h)) fs -> no_empty_text (hs1 ++ h :: hs2) ->
  exists oa ob, html_processed fs hs1 oa /\ html_processed fs (hs1 ++ h :: hs2) (oa ++ markup_token h :: ob).
Proof.
  intros [T [r E]] L NE. assert (H : holds_at (markup_token h) (ApplyFilters fs)).
  { apply chain_holds. revert L. apply Forall_impl. intros F LF. now apply (leaves_holds _ r). }
  destruct (doc_at hs1 h hs2 T) as (b & D). pose proof (doc_yields _ NE) as Ys. rewrite D in Ys.
  refine (H _ _ _ _ Ys (doc_yields hs1 _)). intros x I. apply NE, in_or_app. now left.
Qed.

Lemma weave_no_empty ms : forall ps, Forall markup ms -> Forall no_empty_text ps -> no_empty_text (weave ps ms).
Proof.
  induction ms as [|m ms IH]; intros ps M P; destruct P as [|p ps Pp P]; try (intros h []; fail); [exact Pp|].
  inversion M as [|? ? [T _] M']; subst. intros h I Th. apply in_app_or in I as [I|[<-|I]]; [now apply Pp|contradiction|].
  exact (IH ps M' P h I Th).
Qed.

Lemma C103_weave fs ps ms : length ps = S (length ms) -> Forall markup ms -> Forall (fun h => Forall (leaves (h_string h)) fs /\ ~ raw_start h) ms ->
  Forall no_empty_text ps -> Forall (Forall (fun h => h_type h = HText)) ps ->
  forall os, Forall2 (html_processed fs) ps os -> html_processed fs (weave ps ms) (weave os (map markup_token ms)).
Proof.
  revert ps. induction ms as [|m ms IH]; intros ps Ln M L NE T os F2.
  - destruct ps as [|p [|]]; try discriminate. inversion F2 as [|? ? ? ? Y F0]; subst. inversion F0; subst. exact Y.
  - destruct ps as [|p ps]; [discriminate|]. inversion F2 as [|? o ? os' Y F2']; subst. inversion M as [|? ? Mm M']; inversion L as [|? ? [Lm Rm] L']; subst.
    inversion NE as [|? ? Np NE']; inversion T as [|? ? Tp T']; subst. cbn in Ln.
    pose proof (IH ps ltac:(lia) M' L' NE' T' os' F2') as Yr. cbn [weave map].
    destruct (C103_cut fs p m (weave ps ms) Mm Lm) as (oa & ob & Ya & Yb & Yc).
    + exact (weave_no_empty (m :: ms) (p :: ps) M NE).
    + intros x I. apply in_app_or in I as [I|[<-|[]]]; [|exact Rm]. intros [S _]. rewrite Forall_forall in Tp. rewrite (Tp x I) in S. discriminate.
    + rewrite <- (Yields_inj _ _ _ Ya Y), <- (Yields_inj _ _ _ Yb Yr). exact Yc.
Qed.

(** ** ascii.Fold *)

Lemma C103_fold hs1 h hs2 : markup h -> is_folded (h_string h) -> no_empty_text (hs1 ++ h :: hs2) ->
  exists oa t ob, html_processed [Fold go_unicode] hs1 oa /\ lemma_of go_unicode (fst (FoldString (h_string h))) t /\ tvalue t <> h_string h /\
    html_processed [Fold go_unicode] (hs1 ++ h :: hs2) (oa ++ t :: ob).
Proof.
  intros [T _] FD NE. destruct (doc_at hs1 h hs2 T) as (b & D). pose proof (doc_yields _ NE) as Ys. rewrite D in Ys.
  assert (TT : forall g t, In g [folder go_unicode] -> g t <> None).
  { intros g t [<-|[]]. destruct (folder_total go_unicode t) as (t' & M & _). unfold maps_to in M. cbn in M. congruence. }
  destruct (C20_exact_lemma (h_string h)) as (o & _ & _ & X & _). specialize (X FD).
  destruct (NewToken_cons go_unicode (encode (concat o)) true (FoldString_nonempty _ _ X)) as (t & N).
  assert (Ya : Yields (TokenizeHTML go_unicode words_scan (mkHP hs1 None)) (concat (html_groups go_unicode words_scan AtomZero hs1))).
  { apply doc_yields. intros x I. apply NE, in_or_app. now left. }
  apply (mapper_transforms _ TT) in Ys, Ya. rewrite map_app in Ys. cbn [map] in Ys.
  assert (E : force_map [folder go_unicode] (markup_token h) = t).
  { unfold force_map, markup_token. cbn. unfold folder. cbn [tvalue]. now rewrite X, N. }
  rewrite E in Ys. eexists _, t, _. split; [exact Ya|]. destruct (NewToken_value _ _ _ _ N) as (V & Lm & _). split; [|split; [|exact Ys]].
  - rewrite X. repeat split; assumption.
  - rewrite V. intros C. destruct (C20_stable_lemma _ _ X) as (_ & _ & S). rewrite C in S. congruence.
Qed.

Lemma accent_folded : is_folded ("<p title=" ++ encode [233%N] ++ ">")%string.
Proof.
  exists 233%N, [101%N]. split; [vm_compute; tauto|]. apply find_arm_Entry. vm_compute. reflexivity.
Qed.

Lemma C103_refutation :
  ~ (forall hs1 h hs2, markup h -> no_empty_text (hs1 ++ h :: hs2) ->
     exists oa ob, html_processed [Fold go_unicode] hs1 oa /\ html_processed [Fold go_unicode] (hs1 ++ h :: hs2) (oa ++ markup_token h :: ob)).
Proof.
  intros H. set (h := mkH StartTag (OtherAtom 1) ("<p title=" ++ encode [233%N] ++ ">")%string).
  assert (M : markup h) by (split; [discriminate|eexists; reflexivity]).
  assert (NE : no_empty_text ([] ++ h :: [])) by (intros x [<-|[]]; discriminate).
  destruct (H [] h [] M NE) as (oa & ob & Ya & Y). destruct (C103_fold [] h [] M accent_folded NE) as (oa' & t & ob' & Ya' & _ & NT & Y').
  pose proof (Yields_inj _ _ _ Y Y') as E. rewrite (Yields_inj _ _ _ Ya Ya') in E. apply app_inv_head in E. injection E as E _. apply NT. now rewrite <- E.
Qed.

(** ** An example: "<p>", "@you can't #go", "</p>", "@me" *)

Definition example_passages : list (list htoken) :=
  [[]; [mkH HText AtomZero "@you can't #go"]; [mkH HText AtomZero "@me"]].
Definition example_tags : list htoken := [mkH StartTag (OtherAtom 1) "<p>"; mkH EndTag (OtherAtom 1) "</p>"].
Definition example_filters : list Filter :=
  [Contractions go_unicode words_scan contraction_mappings; Handles go_unicode; Hashtags go_unicode; Fold go_unicode].

Lemma ascii_not_folded v : is_ascii_string v = true -> ~ is_folded v.
Proof.
  intros A F. destruct (C20_exact_lemma v) as (o & _ & _ & X & _). specialize (X F). rewrite (C20_ascii_lemma v A) in X. discriminate.
Qed.

Lemma example_leaves : Forall (fun h => Forall (leaves (h_string h)) example_filters /\ ~ raw_start h) example_tags.
Proof.
  assert (N : forall h, is_ascii_string (h_string h) = true -> Forall (leaves (h_string h)) example_filters).
  { intros h A. unfold example_filters. constructor; [apply LV_expand|]. constructor; [apply LV_handles|]. constructor; [apply LV_hashtags|].
    constructor; [apply LV_fold, ascii_not_folded, A|constructor]. }
  unfold example_tags. constructor; [split; [now apply N|]|constructor; [split; [now apply N|]|constructor]];
    intros [T [A|A]]; discriminate.
Qed.
