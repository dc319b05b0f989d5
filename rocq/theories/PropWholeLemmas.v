(** * Proofs about folding a text and folding its tokens (C101) *)

From Verif Require Import Base Utf8 Unicode UnicodeData Token Stream StreamSpec Tokenizer Words WordSplit Ascii AsciiTable FilterSpec
  StreamProofs TokenProofs Utf8Proofs AsciiProofs FilterProofs WordsProofs PropAsciiLemmas WordSplitProofs WordStable WordJoin PropStableLemmas PropRetextLemmas PropRefoldLemmas.
From Verif Require GeneratorProofs.
Local Open Scope N_scope.

(** Every rune replaced. *)
Definition W (p : string) : string := encode (flat_map subst_rune (runes p)).

Lemma subst_valid rs : Forall (fun r => valid_rune r = true) rs -> Forall (fun r => valid_rune r = true) (flat_map subst_rune rs).
Proof. intros V. eapply Forall_impl; [|exact (flat_subst_unfoldable rs V)]. cbn. tauto. Qed.

Lemma W_chunks p : chunks (W p) = map (fun r => (r, encode_rune r)) (flat_map subst_rune (runes p)).
Proof.
  unfold W. rewrite <- (sapp_nil_r (encode _)), GeneratorProofs.chunks_encode_app; [cbn [chunks]; now rewrite app_nil_r|]. apply subst_valid, runes_valid.
Qed.

Lemma pieces_runes s : runes s = flat_map runes (word_segments s).
Proof.
  rewrite <- chunks_runes, (pieces_chunks _ s eq_refl). induction (word_segments s) as [|p ps IH]; [reflexivity|]. cbn [flat_map]. now rewrite map_app, IH, chunks_runes.
Qed.

Lemma W_pieces s : chunks (W s) = flat_map (fun p => chunks (W p)) (word_segments s).
Proof.
  rewrite W_chunks, pieces_runes. induction (word_segments s) as [|p ps IH]; [reflexivity|]. cbn [flat_map]. now rewrite flat_map_app, map_app, IH, W_chunks.
Qed.

Lemma F_W p : F p = if existsb flagged (runes p) then W p else p.
Proof. unfold F. rewrite FoldString_spec. destruct (existsb flagged (runes p)); reflexivity. Qed.

Lemma unflagged_one r : flagged r = false -> length (subst_rune r) = 1%nat /\ (subst_rune r = [r] <-> r <> 8275 /\ r <> 65374).
Proof.
  intros Fl. destruct (find_arm fold_arms r) as [[o f]|] eqn:E.
  - assert (f = false) as -> by (unfold flagged in Fl; now rewrite E in Fl). apply find_arm_Entry in E. pose proof (subst_rune_entry _ _ _ E) as S. apply unflagged_entries in E as [R ->].
    rewrite S. split; [reflexivity|]. split; [intros X; injection X as X; destruct R; subst; discriminate|intros [A B]; destruct R; contradiction].
  - unfold subst_rune. rewrite E. split; [reflexivity|]. split; [|reflexivity]. intros _. split; intros ->; vm_compute in E; discriminate.
Qed.

Lemma unflagged_length rs : existsb flagged rs = false -> length (flat_map subst_rune rs) = length rs.
Proof.
  induction rs as [|r rs IH]; [reflexivity|]. cbn [existsb flat_map length]. intros E. apply orb_false_iff in E as [A B]. rewrite app_length, (proj1 (unflagged_one r A)), (IH B). reflexivity.
Qed.

Lemma unflagged_same rs : existsb flagged rs = false -> (flat_map subst_rune rs = rs <-> ~ In 8275 rs /\ ~ In 65374 rs).
Proof.
  induction rs as [|r rs IH]; intros E; [cbn; tauto|]. cbn [existsb flat_map] in *. apply orb_false_iff in E as [A B]. specialize (IH B). destruct (unflagged_one r A) as [L S].
  destruct (subst_rune r) as [|y [|z w]]; try discriminate L. cbn [app]. split.
  - intros X. injection X as -> X. apply IH in X. assert (Y : [r] = [r]) by reflexivity. apply S in Y. cbn [In]. intuition congruence.
  - cbn [In]. intros [X Y]. assert (Z : r <> 8275 /\ r <> 65374) by (split; intro; subst; tauto). apply S in Z. injection Z as ->. f_equal. apply IH. tauto.
Qed.

Lemma W_same p : existsb flagged (runes p) = false -> (W p = p <-> valid_utf8 p = true /\ ~ In 8275 (runes p) /\ ~ In 65374 (runes p)).
Proof.
  intros E. rewrite <- (unflagged_same _ E). unfold W. split.
  - intros X. assert (R : flat_map subst_rune (runes p) = runes p).
    { rewrite <- X at 2. rewrite runes_encode. rewrite <- map_id at 1. apply map_ext_in. intros r I.
      pose proof (subst_valid _ (runes_valid p)) as V. rewrite Forall_forall in V. unfold fix_rune. now rewrite (V r I). }
    split; [|exact R]. apply encode_runes_iff. now rewrite <- R.
  - intros [V R]. rewrite R. now apply encode_runes.
Qed.

Lemma flat_map_each {A B} (f g : A -> list B) l : (forall x, In x l -> length (f x) = length (g x)) -> flat_map f l = flat_map g l -> forall x, In x l -> f x = g x.
Proof.
  induction l as [|a l IH]; intros L E x I; [destruct I|]. cbn [flat_map] in E.
  assert (H : f a = g a /\ flat_map f l = flat_map g l).
  { assert (La := L a (or_introl eq_refl)). revert La E. clear. generalize (f a), (g a). induction l0 as [|y l0 IH]; intros [|z l1] La E; try discriminate La; [auto|].
    cbn [app] in E. injection E as -> E. injection La as La. destruct (IH _ La E) as [-> ->]. auto. }
  destruct H as [H1 H2]. destruct I as [<-|I]; [exact H1|]. apply IH; auto. intros y J. apply L. now right.
Qed.

Lemma chunks_length p : length (chunks p) = length (runes p).
Proof. rewrite <- chunks_runes. symmetry. apply map_length. Qed.

Lemma pieces_flagged s : existsb flagged (runes s) = existsb (fun p => existsb flagged (runes p)) (word_segments s).
Proof. rewrite pieces_runes. induction (word_segments s) as [|p ps IH]; [reflexivity|]. cbn [flat_map existsb]. now rewrite existsb_app, IH. Qed.

Lemma whole s : existsb flagged (runes s) = true -> (sconcat (map F (word_segments s)) = W s <-> forall p, In p (word_segments s) -> F p = W p).
Proof.
  intros _. destruct (folded_chunks _ s eq_refl) as [_ C]. cbv zeta in C. split.
  - intros E. rewrite E, W_pieces in C. intros p I.
    assert (X : chunks (F p) = chunks (W p)).
    { symmetry. refine (flat_map_each (fun p => chunks (W p)) (fun p => chunks (F p)) _ _ C p I). clear p I. intros p I. rewrite F_W. destruct (existsb flagged (runes p)) eqn:Fl; [reflexivity|].
      rewrite W_chunks, map_length, chunks_length. now apply unflagged_length. }
    rewrite <- (GeneratorProofs.chunks_text (F p)), X. apply GeneratorProofs.chunks_text.
  - intros H. rewrite <- (GeneratorProofs.chunks_text (sconcat _)), <- (GeneratorProofs.chunks_text (W s)). do 2 f_equal. rewrite C, W_pieces.
    clear C. revert H. induction (word_segments s) as [|p ps IH]; intros H; [reflexivity|]. cbn [flat_map]. rewrite (H p (or_introl eq_refl)), IH; [reflexivity|]. intros q I. apply H. now right.
Qed.

Lemma flagged_some l : existsb flagged l = true <-> exists r out, In r l /\ fold_entry r out true.
Proof.
  rewrite existsb_exists. split.
  - intros (r & I & Fl). apply flagged_entry in Fl as (o & E). exists r, o. now split.
  - intros (r & o & I & E). exists r. split; [exact I|]. apply flagged_entry. now exists o.
Qed.

Lemma whole_exact s : sconcat (map F (word_segments s)) = fst (FoldString s) <->
  (~ exists r out, In r (runes s) /\ fold_entry r out true) \/
  forall p, In p (word_segments s) -> (exists r out, In r (runes p) /\ fold_entry r out true) \/
    (valid_utf8 p = true /\ ~ In 8275 (runes p) /\ ~ In 65374 (runes p)).
Proof.
  destruct (existsb flagged (runes s)) eqn:E.
  - rewrite FoldString_spec, E. cbn [fst]. fold (W s). rewrite (whole s E). split.
    + intros H. right. intros p I. specialize (H p I). rewrite F_W in H. destruct (existsb flagged (runes p)) eqn:Fl; [left; now apply flagged_some|right].
      apply W_same; auto.
    + intros [N|H].
      { exfalso. apply N. now apply flagged_some. }
      intros p I. rewrite F_W. destruct (existsb flagged (runes p)) eqn:Fl; [reflexivity|]. destruct (H p I) as [X|X].
      * apply flagged_some in X. congruence.
      * symmetry. now apply W_same.
  - rewrite FoldString_spec, E. cbn [fst]. rewrite pieces_flagged in E. split.
    + intros _. left. intros X. apply flagged_some in X. rewrite pieces_flagged in X. congruence.
    + intros _. rewrite <- (proj1 (word_segments_ok s)) at 2. f_equal. rewrite <- map_id. apply map_ext_in. intros p I. rewrite F_W.
      destruct (existsb flagged (runes p)) eqn:Fl; [|reflexivity]. exfalso.
      assert (T : existsb (fun p => existsb flagged (runes p)) (word_segments s) = true) by (apply existsb_exists; eauto). congruence.
Qed.

Lemma Fold_text U s o : Yields (Fold U (TokenizeString U words_scan s)) o ->
  text o = sconcat (map F (word_segments s)) /\ ((exists t, In t o /\ tlemma t = true) <-> existsb flagged (runes s) = true).
Proof.
  intros Y. pose proof (TokenizeString_yields U words_scan words_scan_ok s eq_refl) as Y0.
  destruct (C24_lemma U (TokenizeString U words_scan s) (map (piece_token U) (seg words_scan s))) as (l & R & H & _).
  rewrite (Yields_inj _ _ _ Y (H Y0)). clear Y Y0 H o. rewrite pieces_flagged. rewrite seg_word in R.
  assert (Ne : Forall (fun p => p <> EmptyString) (word_segments s)) by (apply Forall_forall; apply (proj2 (word_segments_ok s))).
  revert l R. induction Ne as [|p ps Np Ne IH]; intros l R; inversion R; subst; [split; [reflexivity|]; split; [intros (t & [] & _)|discriminate]|].
  cbn [map sconcat existsb]. unfold text in *. cbn [map sconcat]. destruct (IH _ H3) as [-> L]. clear IH. rewrite piece_token_value in H1.
  pose proof (FoldString_spec p) as S. unfold F. destruct (FoldString p) as [q [|]] eqn:E; cbn [fst].
  - destruct (existsb flagged (runes p)) eqn:Fl; [|discriminate]. cbn [orb]. destruct H1 as (V & M). split; [now rewrite V|]. split; [reflexivity|]. intros _. exists y. split; [now left|]. tauto.
  - destruct (existsb flagged (runes p)) eqn:Fl; [discriminate|]. cbn [orb]. subst y. injection S as ->. split; [now rewrite piece_token_value|]. rewrite <- L. split.
    + intros (t & [<-|I] & M); [|eauto]. exfalso. destruct (NewToken_value _ _ _ _ (piece_token_ok U _ Np)) as (_ & M' & _). congruence.
    + intros (t & I & M). exists t. split; [now right|exact M].
Qed.

Lemma tokens_pieces U s l : Yields (TokenizeString U words_scan s) l -> l = map (piece_token U) (word_segments s).
Proof. intros Y. rewrite <- seg_word. exact (Yields_inj _ _ _ Y (TokenizeString_yields U words_scan words_scan_ok s eq_refl)). Qed.

Lemma C101_lemma U s l o : Yields (TokenizeString U words_scan s) l -> Yields (Fold U (TokenizeString U words_scan s)) o ->
  (text o = fst (FoldString s) <->
   (~ exists r out, In r (runes s) /\ fold_entry r out true) \/
   forall t, In t l -> (exists r out, In r (runes (tvalue t)) /\ fold_entry r out true) \/
     (valid_utf8 (tvalue t) = true /\ ~ In 8275 (runes (tvalue t)) /\ ~ In 65374 (runes (tvalue t)))).
Proof.
  intros Y Yo. rewrite (tokens_pieces _ _ _ Y). destruct (Fold_text _ _ _ Yo) as [-> _]. rewrite whole_exact. split; (intros [H|H]; [now left|right]).
  - intros t I. apply in_map_iff in I as (p & <- & I). rewrite piece_token_value. auto.
  - intros p I. specialize (H (piece_token U p) (in_map _ _ _ I)). now rewrite piece_token_value in H.
Qed.

Lemma C101_lemmas U s o : Yields (Fold U (TokenizeString U words_scan s)) o -> ((exists t, In t o /\ tlemma t = true) <-> snd (FoldString s) = true).
Proof. intros Y. destruct (Fold_text _ _ _ Y) as [_ L]. rewrite L, FoldString_spec. destruct (existsb flagged (runes s)); cbn; tauto. Qed.

Lemma pieces_valid s : valid_utf8 s = true -> forall p, In p (word_segments s) -> valid_utf8 p = true.
Proof.
  intros V. assert (C : Forall (fun q => snd q = encode_rune (fst q)) (chunks s)).
  { rewrite <- (encode_runes s V). rewrite <- (sapp_nil_r (encode _)), GeneratorProofs.chunks_encode_app by apply runes_valid. cbn [chunks]. rewrite app_nil_r.
    apply Forall_forall. intros q I. apply in_map_iff in I as (r & <- & _). reflexivity. }
  rewrite (pieces_chunks _ s eq_refl) in C. intros p I. apply encode_runes_iff. rewrite <- chunks_runes.
  rewrite <- (GeneratorProofs.chunks_text p) at 2. rewrite Forall_forall in C.
  assert (D : forall q, In q (chunks p) -> snd q = encode_rune (fst q)) by (intros q J; apply C, in_flat_map; eauto).
  clear C I V. induction (chunks p) as [|q qs IH]; [reflexivity|]. cbn [map encode sconcat]. rewrite <- (D q (or_introl eq_refl)), IH; [reflexivity|]. intros x J. apply D. now right.
Qed.

Lemma C101_valid U s o : valid_utf8 s = true -> ~ In 8275 (runes s) -> ~ In 65374 (runes s) ->
  Yields (Fold U (TokenizeString U words_scan s)) o -> text o = fst (FoldString s).
Proof.
  intros V A B Y. destruct (Fold_text _ _ _ Y) as [-> _]. apply whole_exact. right. intros p I. right. split; [now apply (pieces_valid s)|].
  rewrite pieces_runes in A, B. split; intros J; [apply A|apply B]; apply in_flat_map; eauto.
Qed.

Lemma C101_refutation U : ~ (forall s o, Yields (Fold U (TokenizeString U words_scan s)) o -> text o = fst (FoldString s)).
Proof.
  intros H. set (s := encode [233; 32; 65374]).
  pose proof (TokenizeString_yields U words_scan words_scan_ok s eq_refl) as Y0.
  destruct (C24_lemma U (TokenizeString U words_scan s) (map (piece_token U) (seg words_scan s))) as (l & _ & X & _). specialize (X Y0).
  pose proof (H s l X) as E. rewrite (proj1 (Fold_text U s l X)) in E. vm_compute in E. discriminate.
Qed.
