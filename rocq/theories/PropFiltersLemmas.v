(** * Lemmas behind C17 - C19, C25 - C28, C31 - C33 *)

From Verif Require Import Base Utf8 Unicode UnicodeData Token Queue Stream StreamSpec Tokenizer Filters Words ContractionsTable
  FilterSpec StreamProofs Utf8Proofs TokenProofs FilterProofs WordsProofs Sources.

(** ** C17 *)

Lemma C17_lemma (U : unicode) (words : list string) (ignoreCase : bool) (keep : token -> bool)
    (s : TokenStream) (l : list token) :
  let key v := if ignoreCase then strings_ToLower U v else v in
  (forall t, keep t = true <-> ~ exists w, In w words /\ key w = key (tvalue t)) ->
  (Yields s l -> Yields (Stopwords U words ignoreCase s) (filter keep l)) /\
  (forall e, Fails s l e -> Fails (Stopwords U words ignoreCase s) (filter keep l) e) /\
  (forall t s1, keep t = true -> Pulls s (l ++ [t]) s1 ->
     exists w, Pulls (Stopwords U words ignoreCase s) (filter keep l ++ [t]) w /\
               ts_next w = ts_next (Stopwords U words ignoreCase s1)).
Proof.
  intros key K.
  assert (E : forall t, keep t = stop_pred U words ignoreCase t).
  { intros t. apply eq_true_iff_eq. rewrite K. unfold stop_pred. rewrite negb_true_iff.
    destruct (smem (stop_key U ignoreCase (tvalue t)) (map (stop_key U ignoreCase) words)) eqn:M.
    - apply smem_In, in_map_iff in M. destruct M as (w & A & B). split; [|discriminate].
      intros N. exfalso. apply N. exists w. split; [exact B|exact A].
    - split; [auto|]. intros _ (w & A & B). apply not_true_iff_false in M. apply M, smem_In, in_map_iff.
      exists w. split; [exact B|exact A]. }
  assert (F : forall l, filter keep l = filter (stop_pred U words ignoreCase) l) by (intros; now apply filter_ext).
  rewrite F. split; [apply Stopwords_yields|]. split; [intros e; apply Stopwords_fails|].
  intros t s1 Kt P. rewrite E in Kt. pose proof (Stopwords_lazy U words ignoreCase _ _ _ _ P Kt) as L.
  rewrite filter_app in L. cbn [filter] in L. rewrite Kt in L. exact L.
Qed.

(** ** C18, C19 *)

Lemma C18_lemma (gs : list (token -> token)) (s : TokenStream) (l : list token) :
  let F := Mapper (map (fun g t => Some (g t)) gs) in
  let out := map (fold_left (fun t g => g t) gs) l in
  (Yields s l -> Yields (F s) out) /\
  (forall e, Fails s l e -> Fails (F s) out e) /\
  (forall s', Pulls s l s' -> exists w, Pulls (F s) out w /\ ts_next w = ts_next (F s')).
Proof.
  intros F out.
  assert (M : Forall2 (maps_to (map (fun g t => Some (g t)) gs)) l out).
  { apply Forall2_map_r. intros t. apply apply_total. }
  split; [intros; eapply Mapper_yields; eauto|]. split; [intros; eapply Mapper_fails; eauto|].
  intros s' P. eapply Mapper_lazy; eauto.
Qed.

(** Mapping functions that may return nil for some tokens: none does for the tokens at hand. *)
Lemma C18_general_lemma (fs : list mapfunc) (s : TokenStream) (l l' : list token) :
  Forall2 (fun t t' => apply_funcs fs (Some t) = Ret (Some t')) l l' ->
  (Yields s l -> Yields (Mapper fs s) l') /\ (forall e, Fails s l e -> Fails (Mapper fs s) l' e).
Proof. intros M. split; intros; [eapply Mapper_yields|eapply Mapper_fails]; eauto. Qed.

Definition drop_b : mapfunc := fun t => if seqb (tvalue t) "b" then None else Some t.

Lemma C19_refutation :
  ~ (forall (f : mapfunc) s l, Yields s l ->
     exists l' s', Returns (fun n => ToSlice n (Mapper [f] s)) ((l', None), s') /\
       forall t t', In t l -> f t = Some t' -> In t' l').
Proof.
  intros H. destruct (H drop_b _ _ (source_yields [tok "a"; tok "b"; tok "c"])) as (l' & s' & [n R] & I).
  specialize (R (n + 5) ltac:(lia)). rewrite Nat.add_comm in R. cbn in R. inversion R; subst.
  assert (X : In (tok "c") [tok "a"]).
  { apply (I (tok "c")); [cbn; auto|reflexivity]. }
  destruct X as [X|[]]. apply (f_equal tvalue) in X. vm_compute in X. discriminate.
Qed.

Lemma C19_panic_lemma (f g : mapfunc) (fs : list mapfunc) s t s1 :
  Nexts s (Some t, None) s1 -> f t = None -> Panics (fun n => Next n (Mapper (f :: g :: fs) s)).
Proof.
  intros [n N] F. exists n. intros m Hm. unfold Mapper, NewTokenStream, Next. cbn [ts_next closure].
  unfold mapper_next. rewrite N by lia. cbn. rewrite F. reflexivity.
Qed.

Lemma C19_partial_lemma (f : mapfunc) s t s1 :
  Nexts s (Some t, None) s1 -> f t = None ->
  exists w, Nexts (Mapper [f] s) (None, None) w /\ ts_next w = ts_next (Mapper [f] s1).
Proof.
  intros N F. eexists. split.
  - apply Nexts_closure, (mapper_tok [f] s t None s1 N). cbn. now rewrite F.
  - reflexivity.
Qed.

(** ** C25, C26 *)

Lemma new_lemma U v : v <> EmptyString -> exists t, NewToken U v true = Some t /\ lemma_of U v t.
Proof.
  intros H. destruct (NewToken_cons U v true H) as (t & N). exists t. split; [exact N|].
  destruct (NewToken_value _ _ _ _ N) as (A & B & _). repeat split; auto.
Qed.

Lemma C25_lemma (U : unicode) (stem : string -> bool -> string) (s : TokenStream) (l : list token) :
  (forall t, In t l -> word t -> stem (tvalue t) true <> EmptyString) ->
  exists l',
  Forall2 (fun t t' =>
     (~ word t \/ stem (tvalue t) true = tvalue t -> t' = t) /\
     (word t -> stem (tvalue t) true <> tvalue t -> lemma_of U (stem (tvalue t) true) t')) l l' /\
  (Yields s l -> Yields (Stemmer U stem s) l') /\
  (forall e, Fails s l e -> Fails (Stemmer U stem s) l' e) /\
  (forall s', Pulls s l s' -> exists w, Pulls (Stemmer U stem s) l' w /\ ts_next w = ts_next (Stemmer U stem s')).
Proof.
  intros NE.
  destruct (Forall2_exists (fun t t' => maps_to [stem_token U stem] t t' /\
     (~ word t \/ stem (tvalue t) true = tvalue t -> t' = t) /\
     (word t -> stem (tvalue t) true <> tvalue t -> lemma_of U (stem (tvalue t) true) t')) l) as (l' & F).
  - intros t Ht. unfold maps_to, stem_token, word. cbn [apply_funcs].
    destruct (tpunct t || tspace t) eqn:P.
    + exists t. split; [reflexivity|]. split; [auto|]. intros [A B]. rewrite A, B in P. discriminate.
    + apply orb_false_iff in P. destruct P as [P1 P2]. destruct (seqb (stem (tvalue t) true) (tvalue t)) eqn:Q.
      * exists t. apply seqb_eq in Q. split; [reflexivity|]. split; [auto|]. intros _ C. contradiction.
      * destruct (new_lemma U (stem (tvalue t) true)) as (t' & N & L); [apply NE; [exact Ht|split; assumption]|].
        exists t'. split; [now rewrite N|]. split; [|auto]. intros [C|C]; [tauto|].
        rewrite C, seqb_refl in Q. discriminate.
  - exists l'. assert (M : Forall2 (maps_to [stem_token U stem]) l l') by (eapply Forall2_impl'; [|exact F]; cbn; tauto).
    split; [eapply Forall2_impl'; [|exact F]; cbn; tauto|].
    split; [intros; eapply Mapper_yields; eauto|]. split; [intros; eapply Mapper_fails; eauto|].
    intros s' P. eapply Mapper_lazy; eauto.
Qed.

Lemma C26_lemma (U : unicode) (isNormal : string -> bool) (normalize : string -> string) :
  (forall v, isNormal v = false -> v <> EmptyString -> normalize v <> EmptyString /\ isNormal (normalize v) = true) ->
  forall (s : TokenStream) (l : list token), Forall (made U) l ->
  exists l',
  Forall2 (fun t t' => if isNormal (tvalue t) then t' = t else lemma_of U (normalize (tvalue t)) t') l l' /\
  (Yields s l -> Yields (Norm U isNormal normalize s) l' /\
     Yields (Norm U isNormal normalize (Norm U isNormal normalize s)) l') /\
  (forall e, Fails s l e -> Fails (Norm U isNormal normalize s) l' e /\
     Fails (Norm U isNormal normalize (Norm U isNormal normalize s)) l' e) /\
  (forall s', Pulls s l s' -> exists w, Pulls (Norm U isNormal normalize s) l' w /\
     ts_next w = ts_next (Norm U isNormal normalize s')).
Proof.
  intros C s l W.
  destruct (Forall2_exists (fun t t' => maps_to [norm_token U isNormal normalize] t t' /\
     (if isNormal (tvalue t) then t' = t else lemma_of U (normalize (tvalue t)) t') /\
     maps_to [norm_token U isNormal normalize] t' t') l) as (l' & F).
  - intros t Ht. rewrite Forall_forall in W. specialize (W t Ht). unfold maps_to, norm_token. cbn [apply_funcs].
    destruct (isNormal (tvalue t)) eqn:N.
    + exists t. rewrite N. auto.
    + destruct (NewToken_value _ _ _ _ W) as (_ & _ & NE). destruct (C _ N NE) as [C1 C2].
      destruct (new_lemma U (normalize (tvalue t)) C1) as (t' & NT & L). exists t'. rewrite NT.
      split; [reflexivity|]. split; [exact L|]. destruct L as (L & _). now rewrite L, C2.
  - exists l'. assert (M : Forall2 (maps_to [norm_token U isNormal normalize]) l l')
      by (eapply Forall2_impl'; [|exact F]; cbn; tauto).
    assert (M2 : Forall2 (maps_to [norm_token U isNormal normalize]) l' l').
    { clear - F. induction F; constructor; tauto. }
    split; [eapply Forall2_impl'; [|exact F]; cbn; tauto|].
    split; [intros Y; assert (Y1 := Mapper_yields _ _ _ _ Y M); split; [exact Y1|eapply Mapper_yields; eauto]|].
    split; [intros e Y; assert (Y1 := Mapper_fails _ _ _ _ _ Y M); split; [exact Y1|eapply Mapper_fails; eauto]|].
    intros s' P. eapply Mapper_lazy; eauto.
Qed.

(** ** C27, C28 *)

Lemma assoc_some_In k (m : list (string * string)) v : NoDup (map fst m) -> In (k, v) m -> assoc k m = Some v.
Proof.
  induction m as [|[k' v'] m IH]; cbn; [intros _ []|]. intros ND [H|H]; inversion ND; subst.
  - inversion H; subst. now rewrite seqb_refl.
  - destruct (seqb k k') eqn:E; [|auto]. apply seqb_eq in E. subst. exfalso. apply H2.
    change k' with (fst (k', v)). now apply in_map.
Qed.

Lemma assoc_none k (m : list (string * string)) : assoc k m = None -> forall v, ~ In (k, v) m.
Proof.
  induction m as [|[k' v'] m IH]; cbn; [intros _ v []|]. destruct (seqb k k') eqn:E; [discriminate|].
  intros H v [A|A]; [inversion A; subst; rewrite seqb_refl in E; discriminate|]. eapply IH; eauto.
Qed.

Lemma lookup_expansion_spec U m v e : NoDup (map fst m) ->
  (lookup_expansion U m v = Some e <-> expansion U m v e).
Proof.
  intros ND. unfold lookup_expansion, expansion. destruct (assoc v m) as [e1|] eqn:A.
  - split.
    + intros H. inversion H; subst. left. now apply assoc_In.
    + intros [H|[H _]]; [|exfalso; eapply H, assoc_In, A]. now rewrite (assoc_some_In _ _ _ ND H) in A.
  - split.
    + intros H. right. split; [now apply assoc_none|now apply assoc_In].
    + intros [H|[_ H]]; [exfalso; eapply assoc_none; eauto|]. now apply assoc_some_In.
Qed.

Lemma expand_token_spec U scan m t : scanner_ok scan -> NoDup (map fst m) ->
  (forall k v, In (k, v) m -> v <> EmptyString /\ serr (scan (mkReader v None)) = None) ->
  expands U scan m t (expand_token U scan m t).
Proof.
  intros SC ND OK. unfold expand_token, expands. destruct (lookup_expansion U m (tvalue t)) as [e|] eqn:L.
  - left. exists e. assert (IE : exists k, In (k, e) m).
    { apply lookup_expansion_spec in L; [|exact ND]. destruct L as [H|[_ H]]; eauto. }
    destruct IE as (k & IE). destruct (OK _ _ IE) as [NE SF]. split; [now apply lookup_expansion_spec|].
    pose proof (TokenizeString_yields U scan SC e SF) as Y. pose proof (seg_concat scan SC e SF) as CC.
    destruct (seg scan e) as [|x xs]; [cbn in CC; congruence|]. exact Y.
  - right. split; [|reflexivity]. intros e H. apply lookup_expansion_spec in H; [|exact ND]. congruence.
Qed.

Lemma C27_lemma (U : unicode) (scan : oracle) (table : list (string * string)) :
  scanner_ok scan -> NoDup (map fst table) ->
  (forall k v, In (k, v) table -> v <> EmptyString /\ serr (scan (mkReader v None)) = None) ->
  forall (s : TokenStream) (l : list token), exists groups,
  Forall2 (expands U scan table) l groups /\
  (Yields s l -> Yields (Contractions U scan table s) (concat groups)) /\
  (forall e, Fails s l e -> Fails (Contractions U scan table s) (concat groups) e) /\
  (forall s', Pulls s l s' -> exists w, Pulls (Contractions U scan table s) (concat groups) w /\
     ts_next w = ts_next (Contractions U scan table s')).
Proof.
  intros SC ND OK s l. exists (map (expand_token U scan table) l). rewrite <- flat_map_concat_map.
  assert (fine : forall k v, In (k, v) table -> seg_fine scan v) by (intros k v H; now apply OK in H).
  split; [apply Forall2_map_r; intros t; now apply expand_token_spec|].
  split; [now apply Contractions_yields|]. split; [intros e; now apply Contractions_fails|].
  intros s'. now apply Contractions_lazy.
Qed.

(** A token whose expansion the scanner cannot split. *)
Lemma contr_token_at U scan m s t s1 : scanner_ok scan -> (forall e, lookup_expansion U m (tvalue t) = Some e -> seg_fine scan e) ->
  Nexts s (Some t, None) s1 -> PullsX (contractions_next U scan m) (mkCS s []) (expand_token U scan m t) (mkCS s1 []).
Proof.
  intros SC F N. unfold expand_token.
  assert (T : forall k e, assoc k m = Some e -> seg_fine scan e -> forall out, Returns (fun n => do (res, _) <- ToSlice n (TokenizeString U scan e);
    match res with (_, Some e) => Ret (true, Some e, out) | (toks, None) => Ret (true, None, q_push out toks) end)
    (true, None, out ++ map (piece_token U) (seg scan e))).
  { intros k e _ Fe out. destruct (TokenizeString_yields U scan SC e Fe) as (s' & E & Q).
    destruct (ToSlice_emits _ _ _ _ E) as (s2 & _ & [n Hn]). exists n. intros j Hj. rewrite Hn by lia. reflexivity. }
  destruct N as [n0 Hn0]. unfold lookup_expansion in *.
  assert (R : forall l, Steps (contractions_next U scan m) (mkCS s []) (match l with [] => Some t | x :: _ => Some x end, None) (mkCS s1 (tl l)) ->
    PullsX (contractions_next U scan m) (mkCS s []) (match l with [] => [t] | x :: r => x :: r end) (mkCS s1 [])).
  { intros [|x l] St; (eapply PX_cons; [exact St|]); [constructor|apply contr_drain; reflexivity]. }
  destruct (assoc (tvalue t) m) as [e|] eqn:A1.
  - apply R. destruct (T _ _ A1 (F _ eq_refl) []) as [n1 Hn1]. exists (Nat.max n0 n1). intros j Hj. unfold contractions_next.
    cbn [c_out q_any q_len length Nat.ltb Nat.leb c_in]. rewrite Hn0 by lia. cbn [bind]. unfold tryExpansion at 1. cbv zeta iota. rewrite A1, Hn1 by lia.
    cbn [bind app]. destruct (map (piece_token U) (seg scan e)); reflexivity.
  - destruct (assoc (strings_ToLower U (tvalue t)) m) as [e|] eqn:A2.
    + apply R. destruct (T _ _ A2 (F _ eq_refl) []) as [n1 Hn1]. exists (Nat.max n0 n1). intros j Hj. unfold contractions_next.
      cbn [c_out q_any q_len length Nat.ltb Nat.leb c_in]. rewrite Hn0 by lia. cbn [bind]. unfold tryExpansion at 1. cbv zeta iota. rewrite A1. cbn [bind].
      unfold tryExpansion. cbv zeta iota. rewrite A2, Hn1 by lia. cbn [bind app]. destruct (map (piece_token U) (seg scan e)); reflexivity.
    + apply (R []). exists n0. intros j Hj. unfold contractions_next.
      cbn [c_out q_any q_len length Nat.ltb Nat.leb c_in]. rewrite Hn0 by lia. cbn [bind]. unfold tryExpansion at 1. cbv zeta iota. rewrite A1. cbn [bind].
      unfold tryExpansion. cbv zeta iota. rewrite A2. reflexivity.
Qed.

Lemma contr_token_error U scan m s t s1 v e : scanner_ok scan -> lookup_expansion U m (tvalue t) = Some v -> serr (scan (mkReader v None)) = Some e ->
  Nexts s (Some t, None) s1 -> Steps (contractions_next U scan m) (mkCS s []) (None, Some e) (mkCS s1 []).
Proof.
  intros SC L SE [n0 Hn0].
  destruct (Tokenize_fails U scan (mkReader v None) e ltac:(apply SC) SE) as (s' & E).
  destruct (ToSlice_emits _ _ _ _ E) as (s2 & _ & [n1 Hn1]). unfold TokenizeString in *.
  exists (Nat.max n0 n1). intros j Hj. unfold contractions_next, tryExpansion, TokenizeString.
  cbn [c_out q_any q_len length Nat.ltb Nat.leb c_in]. rewrite Hn0 by lia. cbn [bind]. cbv zeta iota. unfold lookup_expansion in L.
  destruct (assoc (tvalue t) m) as [x|].
  - injection L as ->. rewrite Hn1 by lia. reflexivity.
  - rewrite L. cbn [bind]. rewrite Hn1 by lia. reflexivity.
Qed.

Lemma C27_error_lemma (U : unicode) (scan : oracle) (table : list (string * string)) s l t s' v e :
  scanner_ok scan -> NoDup (map fst table) ->
  (forall x w, In x l -> expansion U table (tvalue x) w -> w <> EmptyString /\ serr (scan (mkReader w None)) = None) ->
  Pulls s (l ++ [t]) s' -> expansion U table (tvalue t) v -> serr (scan (mkReader v None)) = Some e ->
  exists groups, Forall2 (expands U scan table) l groups /\ Fails (Contractions U scan table s) (concat groups) e.
Proof.
  intros SC ND OK P X SE. exists (map (expand_token U scan table) l). split.
  - clear P. induction l as [|x l IH]; constructor.
    + assert (OKx : forall w, expansion U table (tvalue x) w -> w <> EmptyString /\ serr (scan (mkReader w None)) = None) by (intros w; apply OK; now left).
      unfold expand_token, expands. destruct (lookup_expansion U table (tvalue x)) as [w|] eqn:L.
      * left. exists w. apply lookup_expansion_spec in L; [|exact ND]. destruct (OKx w L) as [NE SF]. split; [exact L|].
        pose proof (TokenizeString_yields U scan SC w SF) as Y. pose proof (seg_concat scan SC w SF) as CC.
        destruct (seg scan w) as [|y ys]; [cbn in CC; congruence|]. exact Y.
      * right. split; [|reflexivity]. intros w H. apply lookup_expansion_spec in H; [|exact ND]. congruence.
    + apply IH. intros y w I. apply OK. now right.
  - apply lookup_expansion_spec in X; [|exact ND]. eapply Fails_closure. rewrite <- flat_map_concat_map. instantiate (1 := mkCS s' []).
    revert s P. induction l as [|x l IH]; intros s P.
    + cbn in *. inversion P as [|? ? s1 ? ? N P']; subst. inversion P'; subst. apply (EX_err _ _ None). eapply contr_token_error; eauto.
    + cbn [app] in P. inversion P as [|? ? s1 ? ? N P']; subst. cbn [flat_map]. eapply PullsX_EmitsX.
      * apply contr_token_at; [exact SC| |exact N]. intros w L. apply lookup_expansion_spec in L; [|exact ND]. exact (proj2 (OK x w (or_introl eq_refl) L)).
      * apply IH; [|exact P']. intros y w I. apply OK. now right.
Qed.

(** Facts about the shipped table, by computation. *)
Fixpoint snodupb (l : list string) : bool :=
  match l with [] => true | x :: r => negb (smem x r) && snodupb r end.
Lemma snodupb_NoDup l : snodupb l = true -> NoDup l.
Proof.
  induction l as [|x l IH]; cbn; [constructor|]. intros H. apply andb_true_iff in H. destruct H as [A B].
  constructor; [|auto]. rewrite <- smem_In. destruct (smem x l); [discriminate|congruence].
Qed.

Lemma contraction_keys : NoDup (map fst contraction_mappings).
Proof. apply snodupb_NoDup. vm_compute. reflexivity. Qed.

Definition piece_ok (p : string) : bool :=
  is_ascii_string p && negb (smem p (map fst contraction_mappings))
    && negb (smem (map_ascii_lower p) (map fst contraction_mappings)).

Lemma contraction_pieces :
  forallb (fun kv : string * string => negb (seqb (snd kv) "") && forallb piece_ok (split_spaces "" (snd kv))) contraction_mappings = true.
Proof. vm_compute. reflexivity. Qed.

(** A scanner that splits the expansions of the table at spaces (they consist of words and single spaces). *)
Definition splits_expansions (scan : oracle) : Prop :=
  forall k v, In (k, v) contraction_mappings ->
    scan (mkReader v None) = mkScanner (split_spaces "" v) None.

Lemma words_scan_splits : splits_expansions words_scan.
Proof.
  assert (T : forallb (fun kv : string * string =>
    if list_eq_dec string_dec (word_segments (snd kv)) (split_spaces "" (snd kv)) then true else false) contraction_mappings = true)
    by (vm_compute; reflexivity).
  rewrite forallb_forall in T. intros k v H. specialize (T _ H). cbn [snd] in T.
  unfold words_scan, scan_of. cbn [rdata rerr]. destruct (list_eq_dec _ _ _) as [->|]; [reflexivity|discriminate].
Qed.

Lemma not_smem_assoc {V} k (m : list (string * V)) : smem k (map fst m) = false -> assoc k m = None.
Proof.
  induction m as [|[k' v] m IH]; cbn; [reflexivity|]. destruct (seqb k k'); cbn; [discriminate|auto].
Qed.

Lemma expand_piece U scan v p k : splits_expansions scan -> In (k, v) contraction_mappings ->
  In p (seg scan v) -> expand_token U scan contraction_mappings (piece_token U p) = [piece_token U p].
Proof.
  intros SP Hk Hp. unfold seg in Hp. rewrite (SP _ _ Hk) in Hp. cbn in Hp.
  pose proof contraction_pieces as T. rewrite forallb_forall in T. specialize (T _ Hk). cbn [snd] in T.
  apply andb_true_iff in T. destruct T as [_ T]. rewrite forallb_forall in T. specialize (T _ Hp).
  unfold piece_ok in T. apply andb_true_iff in T. destruct T as [T T3]. apply andb_true_iff in T. destruct T as [T1 T2].
  apply negb_true_iff in T2, T3. unfold expand_token, lookup_expansion. rewrite piece_token_value.
  rewrite (not_smem_assoc _ _ T2). unfold strings_ToLower. rewrite T1, (not_smem_assoc _ _ T3). reflexivity.
Qed.

Lemma flat_map_fixed {A} (f : A -> list A) l : (forall x, In x l -> f x = [x]) -> flat_map f l = l.
Proof. induction l; cbn; intros H; [reflexivity|]. rewrite H, IHl by auto. reflexivity. Qed.

Lemma expand_twice U scan l : splits_expansions scan ->
  flat_map (expand_token U scan contraction_mappings) (flat_map (expand_token U scan contraction_mappings) l)
  = flat_map (expand_token U scan contraction_mappings) l.
Proof.
  intros SP. induction l as [|t l IH]; cbn [flat_map]; [reflexivity|]. rewrite flat_map_app, IH. f_equal.
  apply flat_map_fixed. intros x. unfold expand_token at 1.
  destruct (lookup_expansion U contraction_mappings (tvalue t)) as [e|] eqn:L.
  - assert (IE : exists k, In (k, e) contraction_mappings).
    { apply lookup_expansion_spec in L; [|apply contraction_keys]. destruct L as [H|[_ H]]; eauto. }
    destruct IE as (k & IE).
    destruct (map (piece_token U) (seg scan e)) as [|y ys] eqn:M.
    + intros [<-|[]]. unfold expand_token. now rewrite L, M.
    + rewrite <- M. intros H. apply in_map_iff in H. destruct H as (p & <- & Hp). eapply expand_piece; eauto.
  - intros [<-|[]]. unfold expand_token. now rewrite L.
Qed.

Lemma splits_fine scan : splits_expansions scan -> forall k v, In (k, v) contraction_mappings -> seg_fine scan v.
Proof. intros SP k v H. unfold seg_fine. now rewrite (SP _ _ H). Qed.

Lemma C28_lemma (U : unicode) (scan : oracle) : scanner_ok scan ->
  (forall k v, In (k, v) contraction_mappings -> scan (mkReader v None) = mkScanner (split_spaces "" v) None) ->
  forall s l, let Expand := Contractions U scan contraction_mappings in
  (Yields s l -> exists l', Yields (Expand s) l' /\ Yields (Expand (Expand s)) l') /\
  (forall e, Fails s l e -> exists l', Fails (Expand s) l' e /\ Fails (Expand (Expand s)) l' e).
Proof.
  intros SC SP s l Expand. pose proof (splits_fine scan SP) as fine. split.
  - intros Y. pose proof (Contractions_yields U scan _ SC fine _ _ Y) as Y1.
    pose proof (Contractions_yields U scan _ SC fine _ _ Y1) as Y2. rewrite expand_twice in Y2 by exact SP. eauto.
  - intros e Y. pose proof (Contractions_fails U scan _ SC fine _ _ _ Y) as Y1.
    pose proof (Contractions_fails U scan _ SC fine _ _ _ Y1) as Y2. rewrite expand_twice in Y2 by exact SP. eauto.
Qed.
