(** * Lemmas behind C20 - C24 *)

From Verif Require Import Base Utf8 Unicode Token Stream StreamSpec Filters AsciiTable LuceneTable Ascii FilterSpec
  StreamProofs Utf8Proofs TokenProofs FilterProofs AsciiProofs.
Local Open Scope N_scope.

Lemma foldable_dec r : foldable r \/ ~ foldable r.
Proof.
  destruct (find_arm fold_arms r) as [[o f]|] eqn:E.
  - left. exists o, f. now apply find_arm_Entry.
  - right. intros (o & f & H). apply find_arm_Entry in H. congruence.
Qed.

Lemma fold_rune_subst r : fold_rune r (subst_rune r).
Proof.
  unfold subst_rune. destruct (find_arm fold_arms r) as [[o f]|] eqn:E.
  - left. exists f. now apply find_arm_Entry.
  - right. split; [|reflexivity]. intros (o & f & H). apply find_arm_Entry in H. congruence.
Qed.

Lemma unfoldable_subst rs : (forall r, In r rs -> ~ foldable r) -> flat_map subst_rune rs = rs.
Proof.
  induction rs as [|r rs IH]; intros H; cbn; [reflexivity|]. rewrite IH by (intros; apply H; now right).
  rewrite subst_rune_no_entry; [reflexivity|]. intros o f E. apply (H r); [now left|]. now exists o, f.
Qed.

Lemma unfoldable_flagged rs : (forall r, In r rs -> ~ foldable r) -> existsb flagged rs = false.
Proof.
  intros H. destruct (existsb flagged rs) eqn:E; [|reflexivity]. apply existsb_exists in E.
  destruct E as (r & A & B). apply flagged_entry in B. destruct B as (o & B). exfalso. apply (H r A). now exists o, true.
Qed.

Lemma C20_partial_lemma s : valid_utf8 s = true ->
  (exists r out, In r (runes s) /\ fold_entry r out true) \/ (forall r, In r (runes s) -> ~ foldable r) ->
  exists outs, Forall2 fold_rune (runes s) outs /\ fst (FoldString s) = encode (concat outs).
Proof.
  intros V H. exists (map subst_rune (runes s)). split.
  - apply Forall2_map_r. apply fold_rune_subst.
  - rewrite FoldString_spec, <- flat_map_concat_map. destruct H as [(r & o & A & B)|H].
    + assert (E : existsb flagged (runes s) = true).
      { apply existsb_exists. exists r. split; [assumption|]. apply flagged_entry. now exists o. }
      now rewrite E.
    + rewrite unfoldable_flagged, unfoldable_subst by assumption. cbn. symmetry. now apply encode_runes.
Qed.

Lemma fold_rune_inj r o1 o2 : fold_rune r o1 -> fold_rune r o2 -> o1 = o2.
Proof.
  intros [[f E]|[N ->]] [[g F]|[M ->]]; [|exfalso; apply M; exists o1, f; exact E|exfalso; apply N; exists o2, g; exact F|reflexivity].
  exact (proj1 (Entry_unique _ _ _ _ _ E F)).
Qed.

Lemma C20_exact_lemma s : exists outs, Forall2 fold_rune (runes s) outs /\ (forall outs', Forall2 fold_rune (runes s) outs' -> outs' = outs) /\
  ((exists r out, In r (runes s) /\ fold_entry r out true) -> FoldString s = (encode (concat outs), true)) /\
  (~ (exists r out, In r (runes s) /\ fold_entry r out true) -> FoldString s = (s, false)).
Proof.
  exists (map subst_rune (runes s)). assert (F : Forall2 fold_rune (runes s) (map subst_rune (runes s))) by (apply Forall2_map_r; apply fold_rune_subst).
  split; [exact F|]. split.
  - generalize dependent (map subst_rune (runes s)). induction (runes s) as [|r rs IH]; intros o F o' F'; inversion F; inversion F'; subst; [reflexivity|].
    f_equal; [eapply fold_rune_inj; eassumption|]. apply IH; assumption.
  - rewrite FoldString_spec, <- flat_map_concat_map. destruct (existsb flagged (runes s)) eqn:E.
    + split; [reflexivity|]. intros N. exfalso. apply N. apply existsb_exists in E. destruct E as (r & I & Fl). apply flagged_entry in Fl. destruct Fl as [o Fl]. exists r, o. auto.
    + split; [|reflexivity]. intros (r & o & I & En). exfalso. assert (existsb flagged (runes s) = true); [|congruence].
      apply existsb_exists. exists r. split; [exact I|]. apply flagged_entry. exists o. exact En.
Qed.

Lemma C20_ascii_lemma s : is_ascii_string s = true -> FoldString s = (s, false).
Proof. apply FoldString_ascii. Qed.

Lemma C20_stable_lemma s s' : FoldString s = (s', true) ->
  (forall r, In r (runes s') -> ~ foldable r) /\ valid_utf8 s' = true /\ FoldString s' = (s', false).
Proof.
  intros H. destruct (FoldString_gone _ _ H) as [A B]. split; [|split; [|exact B]].
  - intros r Hr (o & f & E). rewrite Forall_forall in A. exact (A r Hr o f E).
  - rewrite FoldString_spec in H. destruct (existsb flagged (runes s)); inversion H. apply valid_utf8_encode.
Qed.

(** U+FF5E FULLWIDTH TILDE *)
Definition tilde : string := encode [65374].

Lemma find_tilde : find_arm fold_arms 65374 = Some ([126], false).
Proof. vm_compute. reflexivity. Qed.

Lemma tilde_entry : fold_entry 65374 [126] false.
Proof. apply find_arm_Entry, find_tilde. Qed.

Lemma C20_refutation :
  ~ (forall s, valid_utf8 s = true ->
     exists outs, Forall2 fold_rune (runes s) outs /\ fst (FoldString s) = encode (concat outs)).
Proof.
  intros H. destruct (H tilde eq_refl) as (outs & F & E).
  change (runes tilde) with [65374] in F. inversion F as [|r out rs outs' R F']; subst. inversion F'; subst. clear F F'.
  assert (Out : out = [126]).
  { destruct R as [(f & R)|(R & _)]; [now destruct (Entry_unique _ _ _ _ _ R tilde_entry)|].
    exfalso. apply R. exists [126], false. apply tilde_entry. }
  subst out. vm_compute in E. discriminate.
Qed.

Lemma C21_refutation :
  ~ (forall s, snd (FoldString s) = true <-> exists r, In r (runes s) /\ foldable r).
Proof.
  intros H. destruct (H tilde) as [_ H2].
  assert (X : snd (FoldString tilde) = true).
  { apply H2. exists 65374. split; [left; reflexivity|]. exists [126], false. apply tilde_entry. }
  vm_compute in X. discriminate.
Qed.

Lemma C21_partial_lemma s :
  (snd (FoldString s) = true <-> exists r, In r (runes s) /\ foldable r /\ r <> 8275 /\ r <> 65374) /\
  (snd (FoldString s) = true -> forall r, In r (runes (fst (FoldString s))) -> ~ foldable r).
Proof.
  split.
  - rewrite FoldString_spec. split.
    + destruct (existsb flagged (runes s)) eqn:E; [|discriminate]. intros _. apply existsb_exists in E.
      destruct E as (r & A & B). apply flagged_entry in B. destruct B as (o & B). exists r.
      split; [assumption|]. split; [now exists o, true|].
      assert (N : forall x, find_arm fold_arms x = Some ([126], false) -> r <> x).
      { intros x X ->. apply find_arm_Entry in X. destruct (Entry_unique _ _ _ _ _ B X). discriminate. }
      split; apply N; vm_compute; reflexivity.
    + intros (r & A & (o & f & B) & N1 & N2).
      assert (E : existsb flagged (runes s) = true).
      { apply existsb_exists. exists r. split; [assumption|]. apply flagged_entry. exists o.
        destruct f; [assumption|]. destruct (unflagged_entries _ _ B) as [[?|?] _]; contradiction. }
      now rewrite E.
  - destruct (FoldString s) as [s' b] eqn:E. cbn. intros ->. now apply C20_stable_lemma in E.
Qed.

Lemma C22_refutation : ~ (forall r out, (exists flag, fold_entry r out flag) <-> lucene_entry r out).
Proof.
  intros H. assert (L : find_lucene lucene_arms 680 = Some [116; 99]) by (vm_compute; reflexivity).
  apply find_lucene_some in L. destruct (proj2 (H 680 [116; 99]) L) as (f & E).
  assert (G : find_arm fold_arms 680 = Some ([116; 114], true)) by (vm_compute; reflexivity).
  apply find_arm_Entry in G. destruct (Entry_unique _ _ _ _ _ E G). discriminate.
Qed.

Lemma entries_valid r out flag : fold_entry r out flag -> valid_rune r = true.
Proof.
  intros (cs & A & B).
  assert (T : forallb (fun a : list N * list N * bool => let '(cs, _, _) := a in forallb valid_rune cs) fold_arms = true)
    by (vm_compute; reflexivity).
  rewrite forallb_forall in T. specialize (T _ A). cbv beta iota in T. rewrite forallb_forall in T. auto.
Qed.

Lemma runes_single r : valid_rune r = true -> runes (encode_rune r) = [r].
Proof.
  intros V. rewrite encode_rune_valid by assumption. pose proof (runes_enc r EmptyString V) as H.
  now rewrite sapp_nil_r in H.
Qed.

Lemma C22_partial_lemma r out : r <> 680 ->
  ((exists flag, fold_entry r out flag) <-> lucene_entry r out) /\
  (lucene_entry r out -> r <> 8275 -> r <> 65374 -> FoldString (encode_rune r) = (encode out, true)).
Proof.
  intros N. split; [now apply lucene_same|]. intros L N1 N2. apply (lucene_same r out N) in L. destruct L as (f & E).
  rewrite FoldString_spec, runes_single by (eapply entries_valid; exact E). cbn [existsb flat_map].
  destruct f; [|destruct (unflagged_entries _ _ E) as [[?|?] _]; contradiction].
  assert (F : flagged r = true) by (apply flagged_entry; now exists out).
  rewrite F, (subst_rune_entry _ _ _ E). cbn. now rewrite app_nil_r.
Qed.

Lemma C23_refutation :
  ~ (forall a b, (forall r, In r (runes a) -> ~ foldable r) -> runes (a ++ b) = runes a ++ runes b ->
     fst (FoldString (a ++ b)) = (a ++ fst (FoldString b))%string).
Proof.
  intros H. specialize (H (String (chr 255) EmptyString) (encode [233])).
  assert (X : fst (FoldString (String (chr 255) EmptyString ++ encode [233]))
            = (String (chr 255) EmptyString ++ fst (FoldString (encode [233])))%string).
  { apply H; [|vm_compute; reflexivity]. intros r Hr. change (runes (String (chr 255) EmptyString)) with [65533] in Hr.
    destruct Hr as [<-|[]]. intros (o & f & E). apply find_arm_Entry in E. vm_compute in E. discriminate. }
  vm_compute in X. discriminate.
Qed.

Lemma runes_valid_app a b : valid_utf8 a = true -> runes (a ++ b) = runes a ++ runes b.
Proof.
  intros V. apply valid_utf8_iff in V. destruct V as (l & ->). now rewrite runes_encode_app, runes_encode.
Qed.

Lemma C23_partial_lemma a :  (forall r, In r (runes a) -> ~ foldable r) ->
  FoldString a = (a, false) /\
  (valid_utf8 a = true -> forall b, fst (FoldString (a ++ b)) = (a ++ fst (FoldString b))%string /\
    (valid_utf8 b = true -> fst (FoldString (b ++ a)) = (fst (FoldString b) ++ a)%string)).
Proof.
  intros H. pose proof (unfoldable_flagged _ H) as F. pose proof (unfoldable_subst _ H) as S. split.
  - now rewrite FoldString_spec, F.
  - intros V b. rewrite !FoldString_spec, runes_valid_app, existsb_app, F by assumption. cbn. split.
    + destruct (existsb flagged (runes b)); [|reflexivity]. cbn.
      rewrite flat_map_app, S, encode_app. now rewrite (encode_runes a V).
    + intros Vb. rewrite (runes_valid_app b a Vb), existsb_app, F, orb_false_r.
      destruct (existsb flagged (runes b)); [|reflexivity]. cbn.
      rewrite flat_map_app, S, encode_app. now rewrite (encode_runes a V).
Qed.

Lemma C24_lemma (U : unicode) (s : TokenStream) l : exists l',
  Forall2 (fun t t' => match FoldString (tvalue t) with
                       | (f, true) => lemma_of U f t'
                       | (_, false) => t' = t end) l l' /\
  (Yields s l -> Yields (Fold U s) l') /\
  (forall e, Fails s l e -> Fails (Fold U s) l' e) /\
  (forall s', Pulls s l s' -> exists w, Pulls (Fold U s) l' w /\ ts_next w = ts_next (Fold U s')).
Proof.
  destruct (folder_maps U l) as (l' & M & F). exists l'. split; [|split; [|split]].
  - eapply Forall2_impl'; [|exact F]. intros t t'. unfold folds_to, lemma_of.
    destruct (FoldString (tvalue t)) as [f [|]]; [|auto]. intros N.
    destruct (NewToken_value _ _ _ _ N) as (A & B & _). auto.
  - intros Y. eapply Mapper_yields; eauto.
  - intros e Y. eapply Mapper_fails; eauto.
  - intros s' P. eapply Mapper_lazy; eauto.
Qed.
