(** * PropLineLemmas: proofs for C70. *)

From Verif Require Import Base Utf8 Unicode UnicodeData Token Stream StreamSpec ListSpec Tokenizer Words Filters Ascii Trie Synonyms
  ContractionsTable FilterSpec SynSpec ChainSpec Sources StreamProofs TokenProofs FilterProofs AsciiProofs ChainProofs
  WordsProofs PropStreamLemmas PropAsciiLemmas PropFiltersLemmas PropSigilLemmas PropTwitterLemmas PropSynLemmas PropSynLemmas2 LineSpec WordLineProofs.

(** The filter keeps the token [nl] and does not look across it; tokens remain as NewToken makes them. *)
Definition cuts (U : unicode) (nl : token) (F : Filter) : Prop :=
  (forall s l, Yields s l -> Forall (made U) l -> exists o, Yields (F s) o /\ Forall (made U) o) /\
  (forall s a b sa sb, Forall (made U) a -> Forall (made U) b -> Yields s (a ++ nl :: b) -> Yields sa a -> Yields sb b ->
   exists oa ob, Yields (F sa) oa /\ Yields (F sb) ob /\ Yields (F s) (oa ++ nl :: ob)).

Lemma transforms_cuts U nl F f : transforms F f -> (forall l, Forall (made U) l -> Forall (made U) (f l)) ->
  (forall a b, f (a ++ nl :: b) = f a ++ nl :: f b) -> cuts U nl F.
Proof.
  intros (Y & _) M H. split.
  - intros s l Ys Ml. exists (f l). auto.
  - intros s a b sa sb _ _ Ys Ya Yb. exists (f a), (f b). split; [auto|]. split; [auto|]. rewrite <- H. auto.
Qed.

Lemma line_values a e : ends_line a e -> e = (CR ++ LF)%string \/ e = LF.
Proof. intros [H|[H _]]; auto. Qed.

Lemma total_apply (fs : list mapfunc) : (forall f t, In f fs -> f t <> None) -> forall t, exists t', apply_funcs fs (Some t) = Ret (Some t').
Proof.
  induction fs as [|f fs IH]; intros T t; [eexists; reflexivity|]. cbn [apply_funcs].
  destruct (f t) as [t1|] eqn:E; [|exfalso; exact (T f t (or_introl eq_refl) E)]. apply IH. intros g u I. exact (T g u (or_intror I)).
Qed.

Lemma mapper_cuts U nl fs : (forall f t, In f fs -> f t <> None) -> (forall f t t', In f fs -> made U t -> f t = Some t' -> made U t') ->
  (forall f, In f fs -> f nl = Some nl) -> cuts U nl (Mapper fs).
Proof.
  intros T M N. eapply transforms_cuts; [apply mapper_transforms, T| |].
  - intros l Ml. apply Forall_forall. intros t' I. apply in_map_iff in I as (t & <- & I). rewrite Forall_forall in Ml. specialize (Ml _ I).
    unfold force_map. clear I N. revert t Ml. induction fs as [|f fs IH]; intros t Ml; [exact Ml|]. cbn [apply_funcs].
    destruct (f t) as [t1|] eqn:E; [|exfalso; eapply T; [now left|exact E]].
    assert (M1 : made U t1) by (eapply M; [now left|exact Ml|exact E]).
    destruct (total_apply fs (fun g u I => T g u (or_intror I)) t1) as (t2 & X).
    rewrite X. specialize (IH (fun g u I => T g u (or_intror I)) (fun g u u' I => M g u u' (or_intror I)) t1 M1).
    rewrite X in IH. exact IH.
  - intros a b. rewrite map_app. cbn [map]. f_equal. f_equal.
    unfold force_map. replace (apply_funcs fs (Some nl)) with (@Ret (option token) (Some nl)); [reflexivity|].
    clear T M. induction fs as [|f fs IH]; [reflexivity|]. cbn [apply_funcs]. rewrite (N f) by (now left). apply IH. intros; apply N; now right.
Qed.

Lemma Forall_filter {A} (P : A -> Prop) p l : Forall P l -> Forall P (filter p l).
Proof. intros H. apply Forall_forall. intros x I. apply filter_In in I as [I _]. rewrite Forall_forall in H. auto. Qed.

Lemma filter_cuts U nl (p : token -> bool) F : transforms F (filter p) -> p nl = true -> cuts U nl F.
Proof. intros T P. eapply transforms_cuts; [exact T|intros; now apply Forall_filter|]. intros a b. rewrite filter_app. cbn [filter]. now rewrite P. Qed.

Lemma new_made U v lm t : NewToken U v lm = Some t -> made U t.
Proof. intros H. unfold made. destruct (NewToken_value _ _ _ _ H) as (-> & -> & _). exact H. Qed.

(** Sigils: a line end is not legal after a sigil, and not a word. *)
Lemma sigil_out_cutP U (P : token -> Prop) sigil legal nl : seqb (tvalue nl) sigil = false -> legal (tvalue nl) = false -> tpunct nl = true ->
  (forall c, P c -> tvalue c = sigil -> wordb c = false) ->
  forall n l prev b, length l <= n -> Forall P l ->
  sigil_out U sigil legal false prev (l ++ nl :: b) = sigil_out U sigil legal false prev l ++ nl :: sigil_out U sigil legal false None b.
Proof.
  intros NS NL NP NW.
  assert (R : forall c b, boundary_ok (Some c) = true -> sigil_out U sigil legal false (Some c) b = sigil_out U sigil legal false None b).
  { intros c b H. destruct b as [|t b]; [reflexivity|]. cbn [sigil_out]. rewrite H. reflexivity. }
  assert (Bn : boundary_ok (Some nl) = true) by (cbn; rewrite NP; apply orb_true_r).
  induction n as [|n IH]; intros l prev b L M.
  - destruct l; [|cbn in L; lia]. cbn [app sigil_out]. rewrite NS, andb_false_r. now rewrite R.
  - destruct l as [|c l]; [cbn [app sigil_out]; rewrite NS, andb_false_r; now rewrite R|]. cbn in L.
    inversion M as [|c' l' Mc Ml]; subst.
    cbn [app sigil_out]. destruct (boundary_ok prev && seqb (tvalue c) sigil) eqn:C.
    + apply andb_true_iff in C as [C1 C2]. apply seqb_eq in C2. destruct l as [|d l]; cbn [app].
      * rewrite NL. cbn [app]. f_equal. f_equal. apply R. rewrite boundary_wordb, NW; auto.
      * cbn in L. inversion Ml as [|d' l' Md Ml']; subst. destruct (legal (tvalue d)); cbn [app]; f_equal; [|f_equal]; apply IH; auto; lia.
    + cbn [app]. f_equal. apply IH; auto; lia.
Qed.

Lemma sigil_out_cut U sigil legal nl : seqb (tvalue nl) sigil = false -> legal (tvalue nl) = false -> tpunct nl = true ->
  (forall c, made U c -> tvalue c = sigil -> wordb c = false) ->
  forall n l prev b, length l <= n -> Forall (made U) l ->
  sigil_out U sigil legal false prev (l ++ nl :: b) = sigil_out U sigil legal false prev l ++ nl :: sigil_out U sigil legal false None b.
Proof. exact (sigil_out_cutP U (made U) sigil legal nl). Qed.

Section Lines.
Variable U : unicode.
Variable scan : oracle.
Hypothesis SC : scanner_ok scan.
Hypothesis SA : sane U.
Hypothesis CS : uIsSpace U 44 = false.

Lemma line_legal e : e = (CR ++ LF)%string \/ e = LF -> legalHandle e = false /\ legalHashtag U e = false.
Proof.
  intros H. split; [destruct H as [-> | ->]; reflexivity|].
  assert (L : forall r, uIsSpace U r = true -> uIsLetter U r = false /\ uIsNumber U r = false).
  { intros r S. split; apply not_true_iff_false; intros X; rewrite (sane_hashtag U SA r) in S; auto; discriminate. }
  destruct (L 13%N (sane_cr _ SA)) as [A B], (L 10%N (sane_lf _ SA)) as [C D].
  destruct (legalHashtag U e) eqn:E; [|reflexivity]. exfalso. apply C33_hashtag_lemma in E. destruct H as [-> | ->].
  - destruct E as [(r & E & _)|[_ F]]; [discriminate E|]. inversion F as [|x l [X|[X|X]] _]; subst; congruence.
  - destruct E as [(r & E & X)|[E _]]; [injection E as <-; congruence|apply E; reflexivity].
Qed.

Lemma sigil_cuts sigil legal e : e = (CR ++ LF)%string \/ e = LF -> sigil = "@"%string \/ sigil = "#"%string -> good U sigil legal -> legal e = false ->
  cuts U (line_token e) (Sigil U sigil legal).
Proof.
  intros E S (NE & G1 & _) L. split.
  - intros s l Y M. exists (sigil_out U sigil legal false None l). split; [now apply Sigil_yields|].
    clear Y. assert (X : forall n l prev, length l <= n -> Forall (made U) l -> Forall (made U) (sigil_out U sigil legal false prev l)).
    { induction n as [|n IH]; intros k prev Lk Mk; [destruct k; [constructor|cbn in Lk; lia]|].
      destruct k as [|c k]; [constructor|]. cbn in Lk. inversion Mk; subst. cbn [sigil_out]. destruct (_ && _).
      - destruct k as [|d k]; [now constructor|]. cbn in Lk. inversion H2; subst. destruct (legal (tvalue d)).
        + constructor; [now apply made_merged|]. apply IH; [lia|assumption].
        + do 2 (constructor; [assumption|]). apply IH; [lia|assumption].
      - constructor; [assumption|]. apply IH; [lia|assumption]. }
    exact (X _ l None (le_n _) M).
  - intros s a b sa sb Ma Mb Ys Ya Yb.
    exists (sigil_out U sigil legal false None a), (sigil_out U sigil legal false None b).
    split; [now apply Sigil_yields|]. split; [now apply Sigil_yields|].
    rewrite <- (sigil_out_cut U sigil legal (line_token e)) with (n := length a); [now apply Sigil_yields| | | | |lia|exact Ma].
    + cbn [tvalue line_token]. destruct E as [-> | ->], S as [-> | ->]; reflexivity.
    + exact L.
    + reflexivity.
    + exact G1.
Qed.

Lemma line_filter_cuts F e : (exists a, ends_line a e) -> line_filter U scan F -> cuts U (line_token e) F.
Proof.
  intros (a & E) H. pose proof (line_values a e E) as V. destruct H.
  - eapply filter_cuts; [apply where_transforms|]. eauto.
  - eapply filter_cuts; [apply stop_transforms|]. unfold stop_pred. apply negb_true_iff. apply not_true_iff_false. intros X.
    apply smem_In in X. apply in_map_iff in X as (w & X & I). specialize (H a e w E I). cbn [tvalue line_token] in X. unfold stop_key in X.
    destruct ic; congruence.
  - apply mapper_cuts; eauto.
  - apply mapper_cuts.
    + intros f t [<-|[]]. destruct (folder_total U t) as (t' & M & _). unfold maps_to in M. cbn in M. congruence.
    + intros f t t' [<-|[]] M. unfold folder. destruct (FoldString (tvalue t)) as [v [|]]; [apply new_made|congruence].
    + intros f [<-|[]]. unfold folder. cbn [tvalue line_token]. destruct V as [-> | ->]; reflexivity.
  - apply mapper_cuts.
    + intros f t [<-|[]]. unfold stem_token. destruct (tpunct t || tspace t); [discriminate|].
      destruct (seqb (stem (tvalue t) true) (tvalue t)) eqn:Q; [discriminate|].
      destruct (NewToken_cons U (stem (tvalue t) true) true) as (t' & ->); [|discriminate].
      intros C. apply not_true_iff_false in Q. apply Q, seqb_eq. rewrite C. symmetry. auto.
    + intros f t t' [<-|[]] M. unfold stem_token. destruct (tpunct t || tspace t); [congruence|]. cbv zeta.
      destruct (seqb _ _); [congruence|apply new_made].
    + intros f [<-|[]]. reflexivity.
  - apply mapper_cuts.
    + intros f t [<-|[]]. unfold norm_token. destruct (isNormal (tvalue t)) eqn:Q; [discriminate|].
      destruct (NewToken_cons U (normalize (tvalue t)) true) as (t' & ->); [auto|discriminate].
    + intros f t t' [<-|[]] M. unfold norm_token. destruct (isNormal (tvalue t)); [congruence|apply new_made].
    + intros f [<-|[]]. unfold norm_token. cbn [tvalue line_token]. rewrite (H0 a e E). reflexivity.
  - eapply transforms_cuts with (f := flat_map (expand_token U scan table)).
    + split; [|split]; intros; [apply Contractions_yields; auto|apply Contractions_fails; auto|].
      destruct (Contractions_lazy U scan table SC H _ _ _ H1) as (w & W & _). eauto.
    + intros l M. apply Forall_forall. intros t I. apply in_flat_map in I as (t0 & I0 & I). rewrite Forall_forall in M. specialize (M _ I0).
      unfold expand_token in I. destruct (lookup_expansion U table (tvalue t0)) as [x|]; [|destruct I as [<-|[]]; exact M].
      destruct (map (piece_token U) (seg scan x)) as [|y q] eqn:Q; [destruct I as [<-|[]]; exact M|].
      rewrite <- Q in I. apply in_map_iff in I as (p & <- & I). apply (new_made U p false). apply piece_token_ok.
      apply (seg_nonempty scan SC x p I).
    + intros u v. rewrite flat_map_app. cbn [flat_map]. replace (expand_token U scan table (line_token e)) with [line_token e]; [reflexivity|].
      unfold expand_token, lookup_expansion. cbn [tvalue line_token].
      destruct (assoc e table) as [x|] eqn:A; [exfalso; apply (H0 a e x E); left; now apply assoc_In|].
      destruct (assoc (strings_ToLower U e) table) as [x|] eqn:B; [|reflexivity].
      exfalso. apply (H0 a e x E). right. split; [now apply assoc_none|now apply assoc_In].
  - apply sigil_cuts; [exact V|auto|now apply handles_good|apply line_legal, V].
  - apply sigil_cuts; [exact V|auto|now apply hashtags_good|apply line_legal, V].
  - split.
    + destruct (C38_lemma U scan SC CS _ _ _ _ _ H H0) as (n & _ & Y). intros s l Ys M. destruct (Y _ _ Ys) as (o & R & Yo).
      exists o. split; [exact Yo|]. clear Ys Yo Y H H0. induction R; [constructor| | |].
      * inversion M; subst. constructor; auto.
      * inversion M; subst. constructor; auto.
      * apply Forall_app. split; [|apply IHR].
        -- destruct H1 as [(_ & ->)|(m & (_ & _ & Lm) & ->)]; [constructor|]. constructor; [eapply new_made; exact Lm|constructor].
        -- apply Forall_forall. intros x I. rewrite Forall_forall in M. apply M. rewrite <- (firstn_skipn k (t :: l)). apply in_or_app. now right.
    + intros s u v su sv _ _ Ys Yu Yv. destruct (C39_lemma U scan SC CS _ _ _ _ _ H H0) as (C1 & _).
      exact (C1 s u (line_token e) v su sv eq_refl Ys Yu Yv).
Qed.

Lemma chain_cuts e fs : (exists a, ends_line a e) -> Forall (line_filter U scan) fs -> cuts U (line_token e) (ApplyFilters fs).
Proof.
  intros E. induction 1 as [|F fs H Hs IH].
  - split; [intros s l Y M; exists l; auto|]. intros s a b sa sb _ _ Ys Ya Yb. exists a, b. auto.
  - destruct (line_filter_cuts F e E H) as [T C]. destruct IH as [T' C']. split.
    + intros s l Y M. destruct (T _ _ Y M) as (o & Yo & Mo). exact (T' _ _ Yo Mo).
    + intros s a b sa sb Ma Mb Ys Ya Yb. destruct (C _ _ _ _ _ Ma Mb Ys Ya Yb) as (oa & ob & Yoa & Yob & Yo).
      destruct (T _ _ Ya Ma) as (oa' & Ya' & Moa). rewrite (Yields_inj _ _ _ Yoa Ya') in *.
      destruct (T _ _ Yb Mb) as (ob' & Yb' & Mob). rewrite (Yields_inj _ _ _ Yob Yb') in *.
      exact (C' _ _ _ _ _ Moa Mob Yo Ya' Yb').
Qed.

Lemma selecting_filter F : selecting U F -> exists p, forall s l, Yields s l -> Yields (F s) (filter p l).
Proof.
  destruct 1; eexists; intros s l Y; [apply (proj1 (where_transforms _)), Y|apply (proj1 (where_transforms _)), Y|
    apply (proj1 (where_transforms _)), Y|apply (proj1 (stop_transforms _ _ _)), Y].
Qed.

Lemma filter_filter {A} (p q : A -> bool) l : filter q (filter p l) = filter (fun x => p x && q x) l.
Proof. induction l as [|x l IH]; [reflexivity|]. cbn. destruct (p x); cbn; rewrite IH; reflexivity. Qed.

Lemma selecting_chain gs : Forall (selecting U) gs ->
  exists p, (gs = [] -> forall t, p t = true) /\ forall s l, Yields s l -> Yields (ApplyFilters gs s) (filter p l).
Proof.
  induction 1 as [|F gs H Hs IH].
  - exists (fun _ => true). split; [auto|]. intros s l Y. replace (filter (fun _ => true) l) with l; [exact Y|].
    clear. induction l as [|x l IH]; [reflexivity|]. cbn. now rewrite <- IH.
  - destruct (selecting_filter F H) as (p & P), IH as (q & _ & Q). exists (fun x => p x && q x). split; [discriminate|].
    intros s l Y. rewrite <- filter_filter. apply Q, P, Y.
Qed.
End Lines.

Lemma line_token_made U e : sane U -> e = (CR ++ LF)%string \/ e = LF -> piece_token U e = line_token e.
Proof.
  intros SA H. unfold piece_token.
  assert (X : exists t, NewToken U e false = Some t) by (apply NewToken_cons; destruct H as [-> | ->]; discriminate).
  destruct X as (t & X). rewrite X.
  destruct (NewToken_value _ _ _ _ X) as (V & L & _).
  destruct (NewToken_class U _ _ _ (sane_cr _ SA) (sane_lf _ SA) X) as [P S].
  destruct t as [v p s l]. cbn in *. subst v l. unfold line_token. f_equal.
  - apply P. intros r I. apply isPunct_spec. destruct H as [-> | ->]; cbn in I; intuition.
  - apply S. intros r I. destruct H as [-> | ->]; cbn in I.
    + destruct I as [<-|[<-|[]]]; apply SA.
    + destruct I as [<-|[]]; apply SA.
Qed.

Section Whole.
Variable U : unicode.
Variable seg0 : string -> list string.
Hypothesis SA : sane U.
Hypothesis CS : uIsSpace U 44 = false.
Hypothesis SO : seg_ok seg0.
Hypothesis BL : breaks_lines seg0.
Notation scan := (scan_of seg0).

Definition tokens_of (a : string) : list token := map (piece_token U) (seg0 a).

Lemma tokens_yield a : Yields (TokenizeString U scan a) (tokens_of a).
Proof. apply (TokenizeString_yields U scan (scan_of_ok _ SO) a). reflexivity. Qed.

Lemma tokens_made a : Forall (made U) (tokens_of a).
Proof.
  apply Forall_forall. intros t I. apply in_map_iff in I as (x & <- & I). apply (new_made U x false), piece_token_ok.
  apply (proj2 (SO a)), I.
Qed.

Lemma C70_lemma fs gs : Forall (line_filter U scan) fs -> Forall (selecting U) gs ->
  exists kept : string -> list token,
  (forall e, kept e = [line_token e] \/ kept e = []) /\ (gs = [] -> forall e, kept e = [line_token e]) /\
  forall lines last, (forall a e, In (a, e) lines -> ends_line a e) ->
  exists outs o, Forall2 (fun ae => processed U scan (fs ++ gs) (fst ae)) lines outs /\ processed U scan (fs ++ gs) last o /\
    processed U scan (fs ++ gs) (joined_lines lines ++ last) (joined_outputs kept lines outs ++ o).
Proof.
  intros HF HG. destruct (selecting_chain U gs HG) as (p & P1 & P2).
  exists (fun e => if p (line_token e) then [line_token e] else []). split; [intros e; destruct (p _); auto|].
  split; [intros G e; now rewrite P1|].
  assert (A : forall s, ApplyFilters (fs ++ gs) s = ApplyFilters gs (ApplyFilters fs s)) by (intros s; apply (proj2 (proj2 (proj2 (C09_lemma s))))).
  intros lines last. unfold processed.
  assert (X : (forall a e, In (a, e) lines -> ends_line a e) ->
    exists outs o, Forall2 (fun ae => processed U scan fs (fst ae)) lines outs /\ processed U scan fs last o /\
      processed U scan fs (joined_lines lines ++ last) (joined_outputs (fun e => [line_token e]) lines outs ++ o)).
  { unfold processed, joined_lines, joined_outputs. induction lines as [|[a e] lines IH]; intros EL.
    - destruct (proj1 (chain_cuts U scan (scan_of_ok _ SO) SA CS (CR ++ LF)%string fs (ex_intro _ EmptyString (or_introl eq_refl)) HF) _ _ (tokens_yield last) (tokens_made last)) as (o & Yo & _).
      exists [], o. repeat split; auto.
    - destruct IH as (outs & o & F & Yo & Yw); [intros; apply EL; now right|].
      pose proof (EL a e (or_introl eq_refl)) as E. set (rest := (sconcat (map (fun ae => (fst ae ++ snd ae)%string) lines) ++ last)%string) in *.
      assert (Yt : Yields (TokenizeString U scan (a ++ e ++ rest)) (tokens_of a ++ line_token e :: tokens_of rest)).
      { replace (tokens_of a ++ line_token e :: tokens_of rest) with (tokens_of (a ++ e ++ rest)); [apply tokens_yield|].
        unfold tokens_of. rewrite (BL a e rest E), map_app. cbn [map]. rewrite line_token_made; [reflexivity|exact SA|exact (line_values a e E)]. }
      destruct (chain_cuts U scan (scan_of_ok _ SO) SA CS e fs (ex_intro _ a E) HF) as [_ K].
      destruct (K _ _ _ _ _ (tokens_made a) (tokens_made rest) Yt (tokens_yield a) (tokens_yield rest)) as (oa & ob & Ya & Yb & Yab).
      exists (oa :: outs), o. split; [constructor; [exact Ya|exact F]|]. split; [exact Yo|].
      cbn [map combine concat sconcat fst snd]. rewrite (Yields_inj _ _ _ Yb Yw) in Yab.
      replace (((a ++ e) ++ sconcat (map (fun ae => (fst ae ++ snd ae)%string) lines)) ++ last)%string with (a ++ e ++ rest)%string
        by (unfold rest; now rewrite !sapp_assoc).
      rewrite <- !app_assoc. exact Yab. }
  intros EL. destruct (X EL) as (outs & o & F & Yo & Yw). exists (map (filter p) outs), (filter p o).
  unfold processed in *. rewrite !A. split; [|split].
  - clear -F P2 A. induction F; constructor; auto. rewrite A. now apply P2.
  - now apply P2.
  - apply P2 in Yw. replace (joined_outputs (fun e => if p (line_token e) then [line_token e] else []) lines (map (filter p) outs) ++ filter p o)
      with (filter p (joined_outputs (fun e => [line_token e]) lines outs ++ o)); [exact Yw|].
    rewrite filter_app. f_equal. unfold joined_outputs. clear. revert outs. induction lines as [|ae lines IH]; intros [|x outs]; [reflexivity..|].
    cbn [combine map concat fst snd]. rewrite !filter_app, IH. cbn [filter]. destruct (p (line_token (snd ae))); reflexivity.
Qed.
End Whole.

(** Distinct does look across lines. *)
Lemma C70_distinct_lemma : exists a, ends_line a LF /\
  Yields (Distinct (TokenizeString go_unicode words_scan a)) [tok "a"]%string /\
  Yields (Distinct (TokenizeString go_unicode words_scan (a ++ LF ++ a))) [tok "a"%string; line_token LF].
Proof.
  exists "a"%string. split; [right; split; [reflexivity|intros a' H]|].
  - destruct a' as [|c [|d a']]; discriminate H.
  - assert (E1 : first_occurrences [] (tokens_of go_unicode word_segments "a") = [tok "a"%string]) by (vm_compute; reflexivity).
    assert (E2 : first_occurrences [] (tokens_of go_unicode word_segments ("a" ++ LF ++ "a")) = [tok "a"%string; line_token LF]) by (vm_compute; reflexivity).
    rewrite <- E1 at 1. rewrite <- E2. split; apply Distinct_yields, (tokens_yield go_unicode word_segments word_segments_ok).
Qed.

Lemma contractions_no_line : forall a e v, ends_line a e -> ~ expansion go_unicode contraction_mappings e v.
Proof.
  intros a e v E. apply line_values in E.
  assert (K : existsb (fun kv => seqb (fst kv) (CR ++ LF) || seqb (fst kv) LF) contraction_mappings = false) by (vm_compute; reflexivity).
  assert (N : forall k x, k = (CR ++ LF)%string \/ k = LF -> ~ In (k, x) contraction_mappings).
  { intros k x Hk I. apply not_true_iff_false in K. apply K, existsb_exists. exists (k, x). split; [exact I|]. cbn [fst].
    destruct Hk as [-> | ->]; rewrite seqb_refl; [reflexivity|apply orb_true_r]. }
  assert (L : strings_ToLower go_unicode e = e) by (destruct E as [-> | ->]; vm_compute; reflexivity).
  intros [I|[_ I]]; [|rewrite L in I]; exact (N _ _ E I).
Qed.

Lemma C70_hypotheses_lemma : sane go_unicode /\ uIsSpace go_unicode 44 = false /\ seg_ok word_segments /\
  exists b, Forall (line_filter go_unicode words_scan)
    [Contractions go_unicode words_scan contraction_mappings; Fold go_unicode; SynFilter go_unicode None b; Handles go_unicode; Hashtags go_unicode] /\
  Forall (selecting go_unicode) [Lemmas].
Proof.
  split; [exact go_sane|]. split; [exact go_comma|]. split; [exact word_segments_ok|].
  destruct (concrete_built [("ruby on rails", "ruby-on-rails")]%string true [32%N]) as (D & b & Dd & B). exists b.
  split; [|repeat constructor].
  constructor; [apply LN_expand; [reflexivity|exact contractions_no_line]|]. constructor; [apply LN_fold|].
  constructor; [eapply LN_synonyms; eassumption|]. constructor; [apply LN_handles|]. constructor; [apply LN_hashtags|constructor].
Qed.
