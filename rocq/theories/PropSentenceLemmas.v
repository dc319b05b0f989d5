(** * Lemmas behind C98 *)

From Verif Require Import Base Utf8 Unicode UnicodeData Token Stream StreamSpec ListSpec Tokenizer Words WordSplit Filters Ascii Trie Synonyms
  ContractionsTable FilterSpec SynSpec ChainSpec TextSpec SentenceSpec Sources StreamProofs Utf8Proofs TokenProofs FilterProofs AsciiProofs ChainProofs
  WordsProofs WordSplitProofs WordStable WordJoin PropStreamLemmas PropAsciiLemmas PropFiltersLemmas PropSigilLemmas PropTwitterLemmas PropSynLemmas PropSynLemmas2 PropSynLemmas3 PropRetextLemmas LineSpec PropLineLemmas WordAlone PropTextLemmas PropContractLemmas.
From Verif Require GeneratorProofs.

Local Opaque wbc.
Local Arguments wbc : simpl never.

(** The filter passes [p] on when it comes first, and then goes on as if it had not come. *)
Definition skips (U : unicode) (p : token) (F : Filter) : Prop :=
  forall s b sb, Forall (made U) b -> Yields s (p :: b) -> Yields sb b -> exists ob, Yields (F sb) ob /\ Yields (F s) (p :: ob).

Section Keeps.
Variable U : unicode.
Variable scan : oracle.
Hypothesis SC : scanner_ok scan.
Hypothesis SA : FilterSpec.sane U.
Hypothesis CS : uIsSpace U 44 = false.
Variable p : token.
Hypothesis NW : tpunct p || tspace p = true.

Lemma sigil_makes sigil legal l : sigil <> EmptyString -> Forall (made U) l -> Forall (made U) (sigil_out U sigil legal false None l).
Proof.
  intros NE M. assert (X : forall n l prev, length l <= n -> Forall (made U) l -> Forall (made U) (sigil_out U sigil legal false prev l)).
  { clear - NE. induction n as [|n IH]; intros k prev Lk Mk; [destruct k; [constructor|cbn in Lk; lia]|].
    destruct k as [|c k]; [constructor|]. cbn in Lk. inversion Mk; subst. cbn [sigil_out]. destruct (_ && _).
    - destruct k as [|d k]; [now constructor|]. cbn in Lk. inversion H2; subst. destruct (legal (tvalue d)).
      + constructor; [now apply made_merged|]. apply IH; [lia|assumption].
      + do 2 (constructor; [assumption|]). apply IH; [lia|assumption].
    - constructor; [assumption|]. apply IH; [lia|assumption]. }
  exact (X _ l None (le_n _) M).
Qed.

Definition passes (F : Filter) : Prop := (forall s l, Yields s l -> Forall (made U) l -> exists o, Yields (F s) o /\ Forall (made U) o) /\
  (tpunct p = true -> cuts U p F) /\ skips U p F.

Lemma transforms_passes F f : transforms F f -> (forall l, Forall (made U) l -> Forall (made U) (f l)) ->
  (forall a b, f (a ++ p :: b) = f a ++ p :: f b) -> f [] = [] -> passes F.
Proof.
  intros T M H N. pose proof (transforms_cuts U p F f T M H) as C. split; [exact (proj1 C)|]. split; [auto|].
  intros s b sb _ Ys Yb. exists (f b). destruct T as (Y & _). split; [auto|]. pose proof (H [] b) as E. cbn [app] in E. rewrite N in E. cbn [app] in E. rewrite <- E. auto.
Qed.

Lemma filter_passes (q : token -> bool) F : transforms F (filter q) -> q p = true -> passes F.
Proof. intros T P. eapply transforms_passes; [exact T|intros; now apply Forall_filter| |reflexivity]. intros a b. rewrite filter_app. cbn [filter]. now rewrite P. Qed.

Lemma mapper_passes fs : (forall f t, In f fs -> f t <> None) -> (forall f t t', In f fs -> made U t -> f t = Some t' -> made U t') ->
  (forall f, In f fs -> f p = Some p) -> passes (Mapper fs).
Proof.
  intros T M N. pose proof (mapper_cuts U p fs T M N) as C. split; [exact (proj1 C)|]. split; [auto|].
  intros s b sb Mb Ys Yb. destruct C as [_ C].
  destruct (C s [] b (source [] None) sb (Forall_nil _) Mb Ys (source_yields []) Yb) as (oa & ob & Ya & Yob & Yo). exists ob. split; [exact Yob|].
  assert (oa = []) as ->; [|exact Yo]. pose proof (proj1 (mapper_transforms fs T) _ _ (source_yields [])) as Z. exact (Yields_inj _ _ _ Ya Z).
Qed.

Lemma sigil_passes sigil legal : good U sigil legal -> tvalue p <> sigil -> legal (tvalue p) = false -> passes (Sigil U sigil legal).
Proof.
  intros (NE & G1 & _) NS L. assert (T : forall s l, Yields s l -> Forall (made U) l -> exists o, Yields (Sigil U sigil legal s) o /\ Forall (made U) o).
  { intros s l Y M. exists (sigil_out U sigil legal false None l). split; [now apply Sigil_yields|now apply sigil_makes]. }
  assert (Q : seqb (tvalue p) sigil = false) by (destruct (seqb (tvalue p) sigil) eqn:Q; [apply seqb_eq in Q; contradiction|reflexivity]).
  split; [exact T|]. split.
  - intros P. split; [exact T|]. intros s a b sa sb Ma Mb Ys Ya Yb.
    exists (sigil_out U sigil legal false None a), (sigil_out U sigil legal false None b).
    split; [now apply Sigil_yields|]. split; [now apply Sigil_yields|].
    rewrite <- (sigil_out_cut U sigil legal p) with (n := length a); auto. now apply Sigil_yields.
  - intros s b sb Mb Ys Yb. exists (sigil_out U sigil legal false None b). split; [now apply Sigil_yields|].
    replace (p :: sigil_out U sigil legal false None b) with (sigil_out U sigil legal false None (p :: b)); [now apply Sigil_yields|].
    cbn [sigil_out]. rewrite Q, andb_false_r. f_equal. destruct b as [|t b]; [reflexivity|]. cbn [sigil_out].
    assert (B : boundary_ok (Some p) = true) by (cbn; rewrite orb_comm; exact NW). rewrite B. reflexivity.
Qed.

Lemma keeps_passes F : keeps U scan p F -> passes F.
Proof.
  destruct 1.
  - eapply filter_passes; [apply where_transforms|assumption].
  - eapply filter_passes; [apply stop_transforms|]. unfold stop_pred. apply negb_true_iff. apply not_true_iff_false. intros X.
    apply smem_In in X. apply in_map_iff in X as (w & X & I). specialize (H w I). unfold stop_key in X. destruct ic; congruence.
  - apply mapper_passes; eauto.
  - apply mapper_passes.
    + intros f t [<-|[]]. destruct (folder_total U t) as (t' & M & _). unfold maps_to in M. cbn in M. congruence.
    + intros f t t' [<-|[]] M. unfold folder. destruct (FoldString (tvalue t)) as [v [|]]; [apply new_made|congruence].
    + intros f [<-|[]]. unfold folder. now rewrite (FoldString_ascii _ H).
  - apply mapper_passes.
    + intros f t [<-|[]]. unfold stem_token. destruct (tpunct t || tspace t); [discriminate|].
      destruct (seqb (stem (tvalue t) true) (tvalue t)) eqn:Q; [discriminate|].
      destruct (NewToken_cons U (stem (tvalue t) true) true) as (t' & ->); [|discriminate].
      intros C. apply not_true_iff_false in Q. apply Q, seqb_eq. rewrite C. symmetry. auto.
    + intros f t t' [<-|[]] M. unfold stem_token. destruct (tpunct t || tspace t); [congruence|]. cbv zeta.
      destruct (seqb _ _); [congruence|apply new_made].
    + intros f [<-|[]]. unfold stem_token. now rewrite NW.
  - apply mapper_passes.
    + intros f t [<-|[]]. unfold norm_token. destruct (isNormal (tvalue t)) eqn:Q; [discriminate|].
      destruct (NewToken_cons U (normalize (tvalue t)) true) as (t' & ->); [auto|discriminate].
    + intros f t t' [<-|[]] M. unfold norm_token. destruct (isNormal (tvalue t)); [congruence|apply new_made].
    + intros f [<-|[]]. unfold norm_token. now rewrite H0.
  - eapply transforms_passes with (f := flat_map (expand_token U scan table)).
    + split; [|split]; intros; [apply Contractions_yields; auto|apply Contractions_fails; auto|].
      destruct (Contractions_lazy U scan table SC H _ _ _ H1) as (w & W & _). eauto.
    + intros l M. apply Forall_forall. intros t I. apply in_flat_map in I as (t0 & I0 & I). rewrite Forall_forall in M. specialize (M _ I0).
      unfold expand_token in I. destruct (lookup_expansion U table (tvalue t0)) as [x|]; [|destruct I as [<-|[]]; exact M].
      destruct (map (piece_token U) (seg scan x)) as [|y q] eqn:Q; [destruct I as [<-|[]]; exact M|].
      rewrite <- Q in I. apply in_map_iff in I as (p' & <- & I). apply (new_made U p' false). apply piece_token_ok.
      apply (seg_nonempty scan SC x p' I).
    + intros u v. rewrite flat_map_app. cbn [flat_map]. replace (expand_token U scan table p) with [p]; [reflexivity|].
      unfold expand_token, lookup_expansion.
      destruct (assoc (tvalue p) table) as [x|] eqn:A; [exfalso; apply (H0 x); left; now apply assoc_In|].
      destruct (assoc (strings_ToLower U (tvalue p)) table) as [x|] eqn:B; [|reflexivity].
      exfalso. apply (H0 x). right. split; [now apply assoc_none|now apply assoc_In].
    + reflexivity.
  - apply sigil_passes; [now apply handles_good|assumption|assumption].
  - apply sigil_passes; [now apply hashtags_good|assumption|assumption].
  - destruct (C38_lemma U scan SC CS _ _ _ _ _ H H0) as (n & _ & Y).
    assert (T : forall s l, Yields s l -> Forall (made U) l -> exists o, Yields (SynFilter U None b s) o /\ Forall (made U) o).
    { intros s l Ys M. destruct (Y _ _ Ys) as (o & R & Yo). exists o. split; [exact Yo|]. clear Ys Yo Y H H0. induction R; [constructor| | |].
      * inversion M; subst. constructor; auto.
      * inversion M; subst. constructor; auto.
      * apply Forall_app. split; [|apply IHR].
        -- destruct H1 as [(_ & ->)|(m & (_ & _ & Lm) & ->)]; [constructor|]. constructor; [eapply new_made; exact Lm|constructor].
        -- apply Forall_forall. intros x I. rewrite Forall_forall in M. apply M. rewrite <- (firstn_skipn k (t :: l)). apply in_or_app. now right. }
    split; [exact T|]. split.
    + intros P. split; [exact T|]. intros s u v su sv _ _ Ys Yu Yv. destruct (C39_lemma U scan SC CS _ _ _ _ _ H H0) as (C1 & _).
      exact (C1 s u p v su sv P Ys Yu Yv).
    + intros s l sl _ Ys Yl. destruct (Y _ _ Ys) as (o & Ro & Yo), (Y _ _ Yl) as (ol & Rl & Yol). exists ol. split; [exact Yol|].
      assert (W : ~ word p) by (intros [A B]; rewrite A, B in NW; discriminate).
      rewrite <- (C38_functional _ _ _ _ _ _ _ _ Ro (RW_pass _ _ _ _ _ _ _ _ W Rl)). exact Yo.
Qed.

Lemma chain_passes fs : Forall (keeps U scan p) fs -> passes (ApplyFilters fs).
Proof.
  induction 1 as [|F fs H Hs IH].
  - split; [intros s l Y M; exists l; auto|]. split; [split|].
    + intros s l Y M; exists l; auto.
    + intros s a b sa sb _ _ Ys Ya Yb. exists a, b. auto.
    + intros s b sb _ Ys Yb. exists b. auto.
  - destruct (keeps_passes F H) as (T & C & S). destruct IH as (T' & C' & S').
    assert (TT : forall s l, Yields s l -> Forall (made U) l -> exists o, Yields (ApplyFilters (F :: fs) s) o /\ Forall (made U) o).
    { intros s l Y M. destruct (T _ _ Y M) as (o & Yo & Mo). exact (T' _ _ Yo Mo). }
    split; [exact TT|]. split.
    + intros P. split; [exact TT|]. specialize (C P). specialize (C' P). destruct C as [_ C], C' as [_ C'].
      intros s a b sa sb Ma Mb Ys Ya Yb. destruct (C _ _ _ _ _ Ma Mb Ys Ya Yb) as (oa & ob & Yoa & Yob & Yo).
      destruct (T _ _ Ya Ma) as (oa' & Ya' & Moa). rewrite (Yields_inj _ _ _ Yoa Ya') in *.
      destruct (T _ _ Yb Mb) as (ob' & Yb' & Mob). rewrite (Yields_inj _ _ _ Yob Yb') in *.
      exact (C' _ _ _ _ _ Moa Mob Yo Ya' Yb').
    + intros s b sb Mb Ys Yb. destruct (S _ _ _ Mb Ys Yb) as (ob & Yob & Yo). destruct (T _ _ Yb Mb) as (ob' & Yb' & Mob). rewrite (Yields_inj _ _ _ Yob Yb') in *.
      exact (S' _ _ _ Mob Yo Yb').
Qed.
End Keeps.

(** ** Texts *)

Lemma words_made U a : Forall (made U) (map (piece_token U) (word_segments a)).
Proof. apply pieces_made, seg_some. Qed.

Lemma stands_cut a v b : stands a v b -> word_segments (a ++ v ++ b)%string = word_segments a ++ v :: word_segments b.
Proof.
  intros (ps & qs & E & C). pose proof (leading_pieces _ ps (v :: qs) E) as A. rewrite C in A. rewrite E, A. f_equal. f_equal.
  destruct (later_pieces (ps ++ [v]) (a ++ v ++ b)%string qs) as (s' & Q & X); [rewrite E, <- app_assoc; reflexivity|].
  rewrite GeneratorProofs.sconcat_app in X. cbn [sconcat] in X. rewrite sapp_nil_r, C, sapp_assoc in X. apply sapp_inv_head in X. apply sapp_inv_head in X. subst s'. now symmetry.
Qed.

Lemma C98_clauses U : FilterSpec.sane U -> uIsSpace U 44 = false -> forall p t fs, token_of U p t -> tpunct t = true -> Forall (keeps U words_scan t) fs ->
  forall a b oa ob, token_between U words_scan a p b -> processed U words_scan fs a oa -> processed U words_scan fs b ob ->
  processed U words_scan fs (a ++ p ++ b) (oa ++ t :: ob).
Proof.
  intros SA CS p t fs Ht P K a b oa ob Tb Ya Yb. unfold processed in *. apply token_stands, stands_cut in Tb.
  pose proof (tokens_of U (a ++ p ++ b)%string) as Y. rewrite Tb, map_app in Y. cbn [map] in Y. replace (piece_token U p) with t in Y by (unfold piece_token, token_of in *; now rewrite Ht).
  destruct (chain_passes U words_scan words_scan_ok SA CS t ltac:(now rewrite P) fs K) as (_ & C & _). destruct (C P) as [_ C'].
  destruct (C' _ _ _ _ _ (words_made U a) (words_made U b) Y (tokens_of U a) (tokens_of U b)) as (oa' & ob' & Ya' & Yb' & Yo).
  rewrite (Yields_inj _ _ _ Ya Ya'), (Yields_inj _ _ _ Yb Yb'). exact Yo.
Qed.

(** The end of a sentence before a space. *)

Definition end_class (c : wbclass) : bool := match c with WMidNumLet | WMidNum | WMidLetter | WDoubleQuote | WOther => true | _ => false end.

Lemma end_boundary cx r l : end_class (wbc r) = true -> range_mem ext_pict r = false -> next_class l = WWSegSpace -> boundary cx r l = true.
Proof.
  intros E P N. unfold boundary. rewrite P, N. destruct (wbc r); try discriminate E; cbn;
  destruct (lastc cx); cbn; try reflexivity; destruct (p1 cx); cbn; rewrite ?andb_false_r; reflexivity.
Qed.

Lemma blank_boundary cx l : end_class (lastc cx) = true -> boundary cx 32 l = true.
Proof.
  intros E. destruct (boundary cx 32 l) eqn:B; [reflexivity|]. apply ws_joined in B; [|vm_compute; reflexivity]. rewrite B in E. discriminate E.
Qed.

Lemma afresh_boundary r l : ~ mark r -> wbc r <> WWSegSpace -> boundary (mkCtx WWSegSpace WWSegSpace WOther false) r l = true.
Proof.
  intros M W. unfold mark in M. unfold boundary. cbn [lastc p1 p2 odd_ri]. destruct (wbc r); cbn in *; try reflexivity; try (exfalso; tauto); congruence.
Qed.

Lemma sentence_segments a p b : In p sentence_ends -> begins_afresh b ->
  word_segments (a ++ p ++ " " ++ b)%string = word_segments a ++ p :: " "%string :: word_segments b.
Proof.
  intros Ip Fb.
  assert (F : exists r, chunks p = [(r, p)] /\ end_class (wbc r) = true /\ range_mem ext_pict r = false /\ word_segments p = [p] /\ (forall y, fresh_start (p ++ y)) /\
    end_class (lastc (ctx_after start_ctx (chunks p))) = true /\ p <> EmptyString).
  { cbn in Ip. repeat (destruct Ip as [<-|Ip]; [eexists; split; [reflexivity|]; repeat split; try (vm_compute; reflexivity); discriminate|]). destruct Ip. }
  destruct F as (r & Cp & Ec & Pc & Wp & Fp & El & Np).
  assert (Cb : chunks (" " ++ b)%string = (32%N, " "%string) :: chunks b) by reflexivity.
  assert (Cpb : chunks (p ++ " " ++ b)%string = chunks p ++ chunks (" " ++ b)%string) by (apply GeneratorProofs.chunks_app; reflexivity).
  assert (N32 : is_ign (wbc 32) = false) by (vm_compute; reflexivity).
  assert (W3 : word_segments (" " ++ b)%string = " "%string :: word_segments b).
  { rewrite segments_join; [reflexivity|exact Cb|discriminate|]. unfold begins_afresh in Fb. rewrite <- chunks_runes in Fb. destruct (chunks b) as [|[r2 x2] l]; [exact I|]. cbn [joint map fst] in *.
    replace (ctx_after start_ctx (chunks " ")) with (mkCtx WWSegSpace WWSegSpace WOther false) by (vm_compute; reflexivity). now apply afresh_boundary. }
  assert (W2 : word_segments (p ++ " " ++ b)%string = p :: " "%string :: word_segments b).
  { rewrite segments_join; [now rewrite Wp, W3|exact Cpb|rewrite Cp; discriminate|]. rewrite Cb. cbn [joint]. now apply blank_boundary. }
  destruct (string_dec a "") as [->|Na]; [exact W2|].
  rewrite segments_join; [now rewrite W2|apply GeneratorProofs.chunks_app, Fp|intros X; apply chunks_empty in X; contradiction|].
  rewrite Cpb, Cp, Cb. cbn [app joint]. apply end_boundary; [exact Ec|exact Pc|]. cbn [next_class]. rewrite N32. vm_compute. reflexivity.
Qed.

Lemma C98_sentences_lemma U : FilterSpec.sane U -> uIsSpace U 44 = false -> uIsSpace U 32 = true -> forall p tp ts fs, In p sentence_ends -> token_of U p tp -> tpunct tp = true -> token_of U " " ts ->
  Forall (keeps U words_scan tp) fs -> Forall (keeps U words_scan ts) fs ->
  forall a b oa ob, begins_afresh b -> processed U words_scan fs a oa -> processed U words_scan fs b ob ->
  processed U words_scan fs (a ++ p ++ " " ++ b) (oa ++ tp :: ts :: ob).
Proof.
  intros SA CS S32 p tp ts fs Ip Tp Pp Ts Kp Ks a b oa ob Fb Ya Yb. unfold processed in *.
  pose proof (tokens_of U (a ++ p ++ " " ++ b)%string) as Y. rewrite (sentence_segments a p b Ip Fb), map_app in Y. cbn [map] in Y.
  replace (piece_token U p) with tp in Y by (unfold piece_token, token_of in *; now rewrite Tp). replace (piece_token U " ") with ts in Y by (unfold piece_token, token_of in *; now rewrite Ts).
  assert (Ss : tspace ts = true).
  { unfold token_of in Ts. apply (proj2 (NewToken_class U _ _ _ (sane_cr _ SA) (sane_lf _ SA) Ts)). intros r [<-|[]]. exact S32. }
  destruct (chain_passes U words_scan words_scan_ok SA CS tp ltac:(now rewrite Pp) fs Kp) as (_ & C & _). destruct (C Pp) as [_ C'].
  destruct (chain_passes U words_scan words_scan_ok SA CS ts ltac:(rewrite Ss; apply orb_true_r) fs Ks) as (_ & _ & S').
  assert (Mt : Forall (made U) (ts :: map (piece_token U) (word_segments b))) by (constructor; [exact (new_made U _ _ _ Ts)|apply words_made]).
  pose proof (source_yields (ts :: map (piece_token U) (word_segments b))) as Z.
  destruct (S' _ _ _ (words_made U b) Z (tokens_of U b)) as (ob' & Yb' & Zb).
  destruct (C' _ _ _ _ _ (words_made U a) Mt Y (tokens_of U a) Z) as (oa' & oz & Ya' & Yz & Yo).
  rewrite (Yields_inj _ _ _ Yz Zb) in Yo. rewrite (Yields_inj _ _ _ Ya Ya'), (Yields_inj _ _ _ Yb Yb'). exact Yo.
Qed.

(** ** The filters of the library *)

Lemma no_contraction v : existsb (fun kv : string * string => seqb (fst kv) v) contraction_mappings = false -> strings_ToLower go_unicode v = v ->
  forall e, ~ expansion go_unicode contraction_mappings v e.
Proof.
  intros K L e H. assert (I : In (v, e) contraction_mappings) by (destruct H as [I|[_ I]]; [exact I|now rewrite L in I]).
  apply not_true_iff_false in K. apply K, existsb_exists. exists (v, e). split; [exact I|]. cbn [fst]. apply seqb_refl.
Qed.

Lemma shipped_keeps p F : In p (" "%string :: sentence_ends) -> shipped F -> forall t, tvalue t = p -> keeps go_unicode words_scan t F.
Proof.
  intros Ip H t V. destruct H.
  - apply KP_fold. rewrite V. cbn in Ip. repeat (destruct Ip as [<-|Ip]; [reflexivity|]). destruct Ip.
  - apply KP_expand; [reflexivity|]. rewrite V. apply no_contraction; cbn in Ip; repeat (destruct Ip as [<-|Ip]; [vm_compute; reflexivity|]); destruct Ip.
  - apply KP_handles; rewrite V; cbn in Ip; repeat (destruct Ip as [<-|Ip]; [vm_compute; congruence|]); destruct Ip.
  - apply KP_hashtags; rewrite V; cbn in Ip; repeat (destruct Ip as [<-|Ip]; [vm_compute; congruence|]); destruct Ip.
  - now apply KP_stemmer.
  - eapply KP_synonyms; eassumption.
Qed.

Lemma end_token p : In p sentence_ends -> token_of go_unicode p (mkToken p true false false).
Proof. intros Ip. cbn in Ip. repeat (destruct Ip as [<-|Ip]; [vm_compute; reflexivity|]). destruct Ip. Qed.

Lemma two_sentences fs : Forall shipped fs -> forall a p b oa ob, In p sentence_ends -> begins_afresh b ->
  processed go_unicode words_scan fs a oa -> processed go_unicode words_scan fs b ob ->
  processed go_unicode words_scan fs (a ++ p ++ " " ++ b) (oa ++ mkToken p true false false :: mkToken " " false true false :: ob).
Proof.
  intros H a p b oa ob Ip Fb Ya Yb. eapply (C98_sentences_lemma go_unicode go_sane go_comma eq_refl p); eauto.
  - now apply end_token.
  - vm_compute. reflexivity.
  - eapply Forall_impl; [|exact H]. intros F S. apply (shipped_keeps p F); [now right|exact S|reflexivity].
  - eapply Forall_impl; [|exact H]. intros F S. apply (shipped_keeps " " F); [now left|exact S|reflexivity].
Qed.

Lemma shipped_processed fs a : Forall shipped fs -> exists o, processed go_unicode words_scan fs a o.
Proof.
  intros H. destruct (chain_passes go_unicode words_scan words_scan_ok go_sane go_comma (mkToken " " false true false) eq_refl fs) as (T & _).
  - eapply Forall_impl; [|exact H]. intros F S. apply (shipped_keeps " " F); [now left|exact S|reflexivity].
  - destruct (T _ _ (tokens_of go_unicode a) (words_made go_unicode a)) as (o & Y & _). exists o. exact Y.
Qed.

Lemma afresh_more a p b : In p sentence_ends -> begins_afresh a -> begins_afresh (a ++ p ++ " " ++ b).
Proof.
  intros Ip Fa. unfold begins_afresh in *. rewrite <- chunks_runes in *. rewrite GeneratorProofs.chunks_app.
  - destruct (chunks a) as [|[r x] l]; [|exact Fa]. cbn [app]. clear Fa. unfold mark. cbn in Ip.
    repeat (destruct Ip as [<-|Ip]; [cbn [String.append chunks map fst app]; vm_compute; split; [intuition discriminate|discriminate]|]). destruct Ip.
  - cbn in Ip. repeat (destruct Ip as [<-|Ip]; [reflexivity|]). destruct Ip.
Qed.

Lemma C98_list fs : Forall shipped fs -> forall sentences last,
  (forall a p, In (a, p) sentences -> In p sentence_ends /\ begins_afresh a) -> begins_afresh last ->
  exists outs o, Forall2 (fun ap => processed go_unicode words_scan fs (fst ap)) sentences outs /\ processed go_unicode words_scan fs last o /\
    processed go_unicode words_scan fs (joined_sentences sentences ++ last) (joined_results sentences outs ++ o).
Proof.
  intros H sentences last Hs Fl.
  assert (X : begins_afresh (joined_sentences sentences ++ last) /\ exists outs o, Forall2 (fun ap => processed go_unicode words_scan fs (fst ap)) sentences outs /\ processed go_unicode words_scan fs last o /\
    processed go_unicode words_scan fs (joined_sentences sentences ++ last) (joined_results sentences outs ++ o)); [|exact (proj2 X)].
  induction sentences as [|[a p] l IH].
  - split; [exact Fl|]. destruct (shipped_processed fs last H) as (o & Y). exists [], o. repeat split; auto.
  - destruct IH as (F & outs & o & A & Yo & Y); [intros; apply Hs; now right|]. destruct (Hs a p (or_introl eq_refl)) as [Ip Fa].
    destruct (shipped_processed fs a H) as (oa & Ya).
    assert (E : (joined_sentences ((a, p) :: l) ++ last)%string = (a ++ p ++ " " ++ joined_sentences l ++ last)%string).
    { unfold joined_sentences. cbn [map fst snd sconcat]. now rewrite !sapp_assoc. }
    rewrite E. split; [now apply afresh_more|]. exists (oa :: outs), o. split; [constructor; [exact Ya|exact A]|]. split; [exact Yo|].
    unfold joined_results. cbn [combine map concat fst snd]. rewrite <- !app_assoc. cbn [app]. apply two_sentences; auto.
Qed.
