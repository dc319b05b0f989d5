(** * PropRefoldLemmas: folding a text that was folded before (C81). *)

From Verif Require Import Base Utf8 Unicode UnicodeData Token Stream StreamSpec Tokenizer Words WordSplit Ascii AsciiTable FilterSpec
  StreamProofs TokenProofs Utf8Proofs AsciiProofs FilterProofs WordsProofs PropAsciiLemmas WordSplitProofs WordStable WordJoin PropStableLemmas PropRetextLemmas.
From Verif Require GeneratorProofs.
Local Open Scope N_scope.

Definition F (p : string) : string := fst (FoldString p).

(** The texts are the same up to where the one has a boundary of runes and the other the start of a rune. *)
Definition tracks (s s' : string) : Prop :=
  exists c t t', s = (c ++ t)%string /\ s' = (c ++ t')%string /\ chunks s = chunks c ++ chunks t /\ fresh_start t'.

Lemma tracks_chunks p s s' : tracks s s' -> chunks (p ++ s)%string = chunks p ++ chunks s ->
  chunks (p ++ s')%string = chunks p ++ chunks s' /\ tracks (p ++ s) (p ++ s').
Proof.
  intros (c & t & t' & A & B & C & Fr) E. rewrite C, app_assoc in E.
  destruct (chunks_prefix _ _ _ E) as (H & _).
  assert (T : bytes_of (chunks p ++ chunks c) = (p ++ c)%string).
  { unfold bytes_of. rewrite map_app, sconcat_app'. now rewrite !GeneratorProofs.chunks_text. }
  rewrite T in H. split.
  - subst s'. rewrite <- sapp_assoc, (GeneratorProofs.chunks_app (p ++ c) t' Fr), (GeneratorProofs.chunks_app c t' Fr), H. now rewrite app_assoc.
  - exists (p ++ c)%string, t, t'. subst s s'. rewrite !sapp_assoc. split; [reflexivity|]. split; [reflexivity|]. split; [|exact Fr]. now rewrite H.
Qed.

Lemma F_changed p : F p = p \/ (F p <> EmptyString /\ exists l, F p = encode l /\ Forall (fun r => valid_rune r = true) l).
Proof.
  unfold F. destruct (FoldString p) as [q b] eqn:E. cbn [fst]. destruct b.
  - right. split; [exact (FoldString_nonempty _ _ E)|]. rewrite FoldString_spec in E. destruct (existsb flagged (runes p)); [|discriminate]. injection E as <-.
    eexists. split; [reflexivity|]. eapply Forall_impl; [|apply flat_subst_unfoldable, runes_valid]. cbn. tauto.
  - left. rewrite FoldString_spec in E. destruct (existsb flagged (runes p)); [discriminate|]. now injection E.
Qed.

Lemma F_fine p : existsb flagged (runes (F p)) = false.
Proof.
  unfold F. destruct (FoldString p) as [q b] eqn:E. cbn [fst]. destruct b.
  - destruct (FoldString_gone _ _ E) as [_ G]. rewrite FoldString_spec in G. destruct (existsb flagged (runes q)); [discriminate|reflexivity].
  - rewrite FoldString_spec in E. destruct (existsb flagged (runes p)) eqn:X; [discriminate|]. injection E as <-. exact X.
Qed.

Lemma folded_chunks ps : forall s, word_segments s = ps -> let S := sconcat (map F ps) in
  tracks s S /\ chunks S = flat_map (fun p => chunks (F p)) ps.
Proof.
  induction ps as [|p ps IH]; intros s E; cbv zeta.
  - rewrite (no_pieces s E). split; [|reflexivity]. exists EmptyString, EmptyString, EmptyString. repeat split.
  - destruct (first_joint s p ps E) as (s' & A & C & N & _ & E'). destruct (IH s' E') as [T K]. cbv zeta in T, K. cbn [map sconcat flat_map].
    set (S' := sconcat (map F ps)) in *. rewrite <- K. rewrite A in C |- *. destruct (F_changed p) as [->|(NE & l & El & V)].
    + destruct (tracks_chunks p s' S' T C) as [H1 H2]. auto.
    + rewrite El in NE |- *. split.
      * exists EmptyString, (p ++ s')%string, (encode l ++ S')%string. split; [reflexivity|]. split; [reflexivity|]. split; [reflexivity|].
        apply fresh_app; [exact NE|]. destruct l as [|r l]; [now contradiction NE|]. inversion V; subst. cbn [encode]. rewrite encode_rune_valid by assumption. now apply GeneratorProofs.enc_raw_fresh.
      * rewrite GeneratorProofs.chunks_encode_app by exact V. f_equal.
        rewrite <- (sapp_nil_r (encode l)), GeneratorProofs.chunks_encode_app by exact V. now rewrite app_nil_r.
Qed.

Lemma pieces_chunks ps : forall s, word_segments s = ps -> chunks s = flat_map chunks ps.
Proof.
  induction ps as [|p ps IH]; intros s E; [now rewrite (no_pieces s E)|]. destruct (first_joint s p ps E) as (s' & _ & C & _ & _ & E'). cbn [flat_map]. now rewrite C, (IH s' E').
Qed.

Lemma folded_pieces s : Forall (fun p => FoldString p = (p, false)) (word_segments (sconcat (map F (word_segments s)))).
Proof.
  destruct (folded_chunks _ s eq_refl) as [_ K]. cbv zeta in K. set (S := sconcat (map F (word_segments s))) in *.
  rewrite (pieces_chunks _ S eq_refl) in K. apply Forall_forall. intros p I. rewrite FoldString_spec. destruct (existsb flagged (runes p)) eqn:X; [exfalso|reflexivity].
  apply existsb_exists in X as (r & R & Fl). rewrite <- chunks_runes in R. apply in_map_iff in R as ((r' & b) & Er & R). cbn in Er. subst r'.
  assert (Q : In (r, b) (flat_map chunks (word_segments S))) by (apply in_flat_map; eauto). rewrite K in Q. apply in_flat_map in Q as (p0 & _ & Q).
  pose proof (F_fine p0) as Y. rewrite <- chunks_runes in Y. assert (true = false); [|discriminate]. rewrite <- Y. symmetry. apply existsb_exists. exists r. split; [|exact Fl].
  now apply (in_map fst) in Q.
Qed.

Lemma C81_lemma U s o : Yields (Fold U (TokenizeString U words_scan s)) o ->
  exists o', Yields (TokenizeString U words_scan (text o)) o' /\ Yields (Fold U (TokenizeString U words_scan (text o))) o' /\ text o' = text o.
Proof.
  intros Y. pose proof (TokenizeString_yields U words_scan words_scan_ok s eq_refl) as Y0.
  destruct (C24_lemma U (TokenizeString U words_scan s) (map (piece_token U) (seg words_scan s))) as (l & R & H & _).
  rewrite (Yields_inj _ _ _ Y (H Y0)). clear Y Y0 H o.
  assert (T : text l = sconcat (map F (word_segments s))).
  { rewrite seg_word in R. revert l R. induction (word_segments s) as [|p ps IH]; intros l R; inversion R; subst; [reflexivity|]. cbn [map sconcat]. unfold text in *. cbn [map sconcat].
    rewrite (IH _ H3). f_equal. rewrite piece_token_value in H1. unfold F. destruct (FoldString p) as [q [|]] eqn:E; cbn [fst].
    - unfold lemma_of in H1. tauto.
    - subst. rewrite piece_token_value. rewrite FoldString_spec in E. destruct (existsb flagged (runes p)); [discriminate|]. now injection E. }
  rewrite T. clear T R l. pose proof (folded_pieces s) as P. set (S := sconcat (map F (word_segments s))) in *.
  pose proof (TokenizeString_yields U words_scan words_scan_ok S eq_refl) as YS. rewrite seg_word in YS.
  exists (map (piece_token U) (word_segments S)). split; [exact YS|]. split.
  - destruct (C24_lemma U (TokenizeString U words_scan S) (map (piece_token U) (word_segments S))) as (l & R & H & _). specialize (H YS).
    assert (l = map (piece_token U) (word_segments S)) as <-; [|exact H]. clear H YS. clearbody S. revert l R. induction P as [|p ps E P IH]; intros l R; inversion R; subst; [reflexivity|].
    cbn [map]. rewrite piece_token_value, E in H1. subst. f_equal. now apply IH.
  - rewrite text_pieces. apply word_segments_ok.
Qed.
