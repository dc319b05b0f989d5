(** * Lemmas behind C32 (all texts), C67 and C68 *)

From Verif Require Import Base Utf8 Unicode UnicodeData Token Stream StreamSpec Ascii Filters FilterSpec
  StreamProofs Utf8Proofs TokenProofs FilterProofs AsciiProofs Sources PropFiltersLemmas PropSigilLemmas PropAsciiLemmas.

(** ** Sigil filters, every text *)

Section Steps.
Variable U : unicode.
Variable sigil : string.
Variable legal : string -> bool.
Hypothesis sigil_ne : sigil <> EmptyString.
Notation out := (sigil_out U sigil legal).
Notation steps := (joined_by_steps U sigil legal).

Lemma JS_equiv (w w' : Prop) l l' : (w <-> w') -> steps w l l' -> steps w' l l'.
Proof.
  clear sigil_ne. intros E J. inversion J; subst.
  - constructor.
  - apply JS_pair; auto. tauto.
  - apply JS_skip; auto. tauto.
  - apply JS_last; auto. tauto.
  - apply JS_keep; auto. destruct H as [H|H]; [left; tauto|now right].
Qed.

Lemma out_steps n : forall l prev, length l <= n -> steps (after_word prev) l (out false prev l).
Proof.
  induction n as [|n IH]; intros l prev L.
  - destruct l; [constructor|cbn in L; lia].
  - destruct l as [|c l]; cbn [sigil_out]; [constructor|]. cbn in L.
    destruct (boundary_ok prev) eqn:B; cbn [andb].
    + assert (NW : ~ after_word prev) by (rewrite <- boundary_after; congruence).
      destruct (seqb (tvalue c) sigil) eqn:C.
      * apply seqb_eq in C. destruct l as [|b l]; [now apply JS_last|]. cbn in L. destruct (legal (tvalue b)) eqn:Lg.
        -- apply JS_pair; auto using merged_lemma. eapply JS_equiv; [apply after_some|]. apply IH. lia.
        -- apply JS_skip; auto. eapply JS_equiv; [apply after_some|]. apply IH. lia.
      * apply JS_keep; [right; intros X; rewrite X, seqb_refl in C; discriminate|].
        eapply JS_equiv; [apply after_some|]. apply IH. lia.
    + apply boundary_after in B. apply JS_keep; [auto|]. eapply JS_equiv; [apply after_some|]. apply IH. lia.
Qed.

Lemma steps_lemma s l : Yields s l -> exists l', Yields (Sigil U sigil legal s) l' /\ steps False l l'.
Proof.
  intros Y. exists (out false None l). split; [now apply Sigil_yields|].
  eapply JS_equiv; [|apply (out_steps _ l None (le_n _))]. split; [intros (p & H & _); discriminate|tauto].
Qed.

Lemma steps_inj n : forall l w w' l1 l2, length l <= n -> (w <-> w') -> steps w l l1 -> steps w' l l2 -> l1 = l2.
Proof.
  clear sigil_ne. induction n as [|n IH]; intros l w w' l1 l2 L E J1 J2.
  - destruct l; [inversion J1; inversion J2; reflexivity|cbn in L; lia].
  - inversion J1; subst; inversion J2; subst; cbn in L; try reflexivity; try congruence; try tauto;
      repeat match goal with H : _ \/ _ |- _ => destruct H; [tauto|congruence] end.
    + f_equal; [|eapply IH; [| |eassumption|eassumption]; [lia|]; 
        repeat match goal with H : lemma_of _ _ _ |- _ => destruct H as (_ & _ & ?) end; assert (m0 = m) by congruence; subst; apply iff_refl].
      repeat match goal with H : lemma_of _ _ _ |- _ => destruct H as (_ & _ & ?) end. congruence.
    + f_equal. f_equal. eapply IH; [| |eassumption|eassumption]; [lia|apply iff_refl].
    + f_equal. eapply IH; [| |eassumption|eassumption]; [lia|apply iff_refl].
Qed.

(** *** Twice *)

Lemma merged_not_sigil b : tvalue b <> EmptyString -> seqb (tvalue (merged U sigil b)) sigil = false.
Proof.
  intros N. destruct (NewToken_value _ _ _ _ (merged_ok U sigil sigil_ne b)) as (-> & _).
  destruct (seqb (sigil ++ tvalue b)%string sigil) eqn:E; [|reflexivity]. apply seqb_eq in E. exfalso.
  clear sigil_ne. induction sigil as [|c s IH]; cbn in E; [congruence|]. injection E as E. auto.
Qed.

Lemma out_twice f n : forall l prev, length l <= n -> (forall t, In t l -> tvalue t <> EmptyString) -> out f prev (out f prev l) = out f prev l.
Proof.
  induction n as [|n IH]; intros l prev L NE.
  - destruct l; [reflexivity|cbn in L; lia].
  - destruct l as [|c l]; [reflexivity|]. cbn in L. cbn [sigil_out].
    destruct (boundary_ok prev && seqb (tvalue c) sigil) eqn:B.
    + destruct l as [|b l].
      * destruct f; [reflexivity|]. cbn [sigil_out]. rewrite B. reflexivity.
      * cbn in L. destruct (legal (tvalue b)) eqn:Lg.
        -- cbn [sigil_out]. rewrite merged_not_sigil, andb_false_r by (apply NE; right; now left).
           f_equal. apply IH; [lia|]. intros t I. apply NE. right. now right.
        -- cbn [sigil_out]. rewrite B, Lg. do 2 f_equal. apply IH; [lia|]. intros t I. apply NE. right. now right.
    + cbn [sigil_out]. rewrite B. f_equal. apply IH; [lia|]. intros t I. apply NE. now right.
Qed.

Lemma sigil_twice s l : (forall t, In t l -> tvalue t <> EmptyString) -> let F := Sigil U sigil legal in
  (Yields s l -> exists l', Yields (F s) l' /\ Yields (F (F s)) l') /\ (forall e, Fails s l e -> exists l', Fails (F s) l' e /\ Fails (F (F s)) l' e).
Proof.
  intros NE F. split.
  - intros Y. pose proof (Sigil_yields U sigil legal sigil_ne _ _ Y) as Y1. exists (out false None l). split; [exact Y1|].
    apply (Sigil_yields U sigil legal sigil_ne) in Y1. now rewrite (out_twice false _ l None (le_n _) NE) in Y1.
  - intros e Y. pose proof (Sigil_fails U sigil legal sigil_ne _ _ _ Y) as Y1. exists (out true None l). split; [exact Y1|].
    apply (Sigil_fails U sigil legal sigil_ne) in Y1. now rewrite (out_twice true _ l None (le_n _) NE) in Y1.
Qed.
End Steps.

(** ** Two sigil filters *)

Section Two.
Variable U : unicode.

(** What a sigil filter does with a fair text; [w]: after a word. *)
Fixpoint je (sigil : string) (legal : string -> bool) (w : bool) (l : list token) : list token :=
  match l with
  | [] => []
  | c :: l' =>
    if negb w && seqb (tvalue c) sigil then
      match l' with
      | [] => [c]
      | b :: l'' => if legal (tvalue b) then merged U sigil b :: je sigil legal (wordb b) l'' else c :: b :: je sigil legal false l''
      end
    else c :: je sigil legal (wordb c) l'
  end.

Definition good (sigil : string) (legal : string -> bool) : Prop := sigil <> EmptyString /\
  (forall c, made U c -> tvalue c = sigil -> wordb c = false) /\
  (forall b, made U b -> legal (tvalue b) = true -> wordb (merged U sigil b) = wordb b).

Lemma boundary_wordb c : boundary_ok (Some c) = negb (wordb c).
Proof. unfold boundary_ok, wordb. rewrite Bool.negb_involutive. apply Bool.orb_comm. Qed.

Lemma je_out sigil legal n : good sigil legal -> forall l prev w, length l <= n -> Forall (made U) l -> boundary_ok prev = negb w ->
  sigil_out U sigil legal false prev l = je sigil legal w l.
Proof.
  intros (NE & SW & MW). induction n as [|n IH]; intros l prev w L M B.
  - destruct l; [reflexivity|cbn in L; lia].
  - destruct l as [|c l]; [reflexivity|]. cbn in L. cbn [sigil_out je]. rewrite B. inversion M as [|? ? Mc Ml]; subst.
    destruct (negb w && seqb (tvalue c) sigil) eqn:X.
    + apply andb_true_iff in X as [_ X]. apply seqb_eq in X. destruct l as [|b l]; [reflexivity|]. inversion Ml as [|? ? Mb Ml']; subst. cbn in L.
      destruct (legal (tvalue b)) eqn:Lg; f_equal; [|f_equal]; apply IH; try lia; try exact Ml'; rewrite boundary_wordb; f_equal; auto.
    + f_equal. apply IH; [lia|exact Ml|apply boundary_wordb].
Qed.

Lemma made_merged sigil b : sigil <> EmptyString -> made U (merged U sigil b).
Proof.
  intros NE. pose proof (merged_ok U sigil NE b) as N. destruct (NewToken_value _ _ _ _ N) as (A & B & _). unfold made. now rewrite A, B.
Qed.

Lemma je_made sigil legal n : sigil <> EmptyString -> forall l w, length l <= n -> Forall (made U) l -> Forall (made U) (je sigil legal w l).
Proof.
  intros NE. induction n as [|n IH]; intros l w L M.
  - destruct l; [constructor|cbn in L; lia].
  - destruct l as [|c l]; [constructor|]. cbn in L. inversion M as [|? ? Mc Ml]; subst. cbn [je].
    destruct (negb w && seqb (tvalue c) sigil).
    + destruct l as [|b l]; [auto|]. inversion Ml as [|? ? Mb Ml']; subst. cbn in L.
      destruct (legal (tvalue b)); repeat constructor; auto using made_merged; apply IH; auto; lia.
    + constructor; [exact Mc|]. apply IH; auto; lia.
Qed.

Variables (s1 s2 : string) (legal1 legal2 : string -> bool).
Hypothesis G1 : good s1 legal1.
Hypothesis G2 : good s2 legal2.
Hypothesis S12 : s1 <> s2.
(** A name is not a sigil, nor is a handle. *)
Hypothesis N1 : legal1 s2 = false.
Hypothesis N2 : legal2 s1 = false.
Hypothesis M1 : forall v, (s1 ++ v)%string <> s2.
Hypothesis M2 : forall v, (s2 ++ v)%string <> s1.

Definition fair2 (l : list token) : Prop := forall a c b d, l = a ++ c :: b :: d ->
  (tvalue c = s1 -> legal1 (tvalue b) = true \/ (tvalue b <> s1 /\ tvalue b <> s2 /\ ~ word b)) /\
  (tvalue c = s2 -> legal2 (tvalue b) = true \/ (tvalue b <> s1 /\ tvalue b <> s2 /\ ~ word b)).

Lemma fair2_tail c l : fair2 (c :: l) -> fair2 l.
Proof. intros H a x b d E. apply (H (c :: a) x b d). now rewrite E. Qed.

Lemma seqb_neq a b : a <> b -> seqb a b = false.
Proof. intros N. destruct (seqb a b) eqn:E; [apply seqb_eq in E; congruence|reflexivity]. Qed.

Lemma merged_value sigil b : sigil <> EmptyString -> tvalue (merged U sigil b) = (sigil ++ tvalue b)%string.
Proof. intros NE. now destruct (NewToken_value _ _ _ _ (merged_ok U sigil NE b)) as (-> & _). Qed.
End Two.

Lemma je_commute U s1 s2 legal1 legal2 n :
  good U s1 legal1 -> good U s2 legal2 -> s1 <> s2 -> legal1 s2 = false -> legal2 s1 = false ->
  (forall v, (s1 ++ v)%string <> s2) -> (forall v, (s2 ++ v)%string <> s1) ->
  forall l w, length l <= n -> Forall (made U) l -> fair2 s1 s2 legal1 legal2 l ->
  je U s1 legal1 w (je U s2 legal2 w l) = je U s2 legal2 w (je U s1 legal1 w l).
Proof.
  revert s1 s2 legal1 legal2.
  (* one of the two cases where the first token is a sigil *)
  assert (Case : forall s1 s2 legal1 legal2 n c l,
    good U s1 legal1 -> good U s2 legal2 -> s1 <> s2 -> legal1 s2 = false ->
    (forall v, (s1 ++ v)%string <> s2) ->
    (forall l w, length l <= n -> Forall (made U) l -> fair2 s1 s2 legal1 legal2 l ->
       je U s1 legal1 w (je U s2 legal2 w l) = je U s2 legal2 w (je U s1 legal1 w l)) ->
    length l <= n -> Forall (made U) (c :: l) -> fair2 s1 s2 legal1 legal2 (c :: l) -> tvalue c = s1 ->
    je U s1 legal1 false (je U s2 legal2 false (c :: l)) = je U s2 legal2 false (je U s1 legal1 false (c :: l))).
  { intros s1 s2 legal1 legal2 k c l G1 G2 S12 N1 M1 IH L M F C.
    destruct G1 as (NE1 & SW1 & MW1). inversion M as [|? ? Mc Ml]; subst.
    assert (W : wordb c = false) by (apply SW1; auto).
    assert (Q : seqb (tvalue c) s2 = false) by (now apply seqb_neq).
    cbn [je]. rewrite Q, seqb_refl. cbn [negb andb]. destruct l as [|b l].
    - cbn [je]. rewrite seqb_refl, Q. reflexivity.
    - inversion Ml as [|? ? Mb Ml']; subst. cbn in L.
      pose proof (fair2_tail _ _ _ _ _ _ (fair2_tail _ _ _ _ _ _ F)) as F'.
      destruct (legal1 (tvalue b)) eqn:Lg.
      + assert (B2 : seqb (tvalue b) s2 = false) by (apply seqb_neq; intros X; congruence).
        rewrite W. cbn [je]. rewrite B2, andb_false_r. cbn [je]. rewrite seqb_refl. cbn [negb andb]. rewrite Lg.
        rewrite seqb_neq by (rewrite merged_value by exact NE1; apply M1). cbn [negb andb]. rewrite MW1 by assumption.
        f_equal. apply IH; auto. lia.
      + destruct (proj1 (F [] c b l eq_refl) eq_refl) as [X|(B1 & B2 & B3)]; [congruence|].
        assert (WB : wordb b = false) by (destruct (wordb b) eqn:E; [destruct B3; unfold word; unfold wordb in E; destruct (tpunct b), (tspace b); try discriminate; auto|reflexivity]).
        rewrite W. cbn [je]. rewrite (seqb_neq _ _ B2), andb_false_r. cbn [je]. rewrite seqb_refl. cbn [negb andb]. rewrite Lg, Q, W.
        rewrite andb_false_r, WB. do 2 f_equal. apply IH; auto. lia. }
  induction n as [|n IH]; intros s1 s2 legal1 legal2 G1 G2 S12 N1 N2 M1 M2 l w L M F.
  - destruct l; [reflexivity|cbn in L; lia].
  - destruct l as [|c l]; [reflexivity|]. cbn in L. assert (L' : length l <= n) by lia.
    destruct w.
    + cbn [je negb andb]. f_equal. inversion M; subst. apply IH; auto. now apply fair2_tail in F.
    + destruct (seqb (tvalue c) s1) eqn:C1.
      * apply seqb_eq in C1. apply (Case s1 s2 legal1 legal2 n); auto.
      * destruct (seqb (tvalue c) s2) eqn:C2.
        -- apply seqb_eq in C2. symmetry. apply (Case s2 s1 legal2 legal1 n); auto.
           intros a x b d E. destruct (F a x b d E) as [X Y]. split; intros Z; [apply Y in Z|apply X in Z]; tauto.
        -- cbn [je negb andb]. rewrite C1, C2. cbn [je negb andb]. rewrite C1, C2. f_equal. inversion M; subst. apply IH; auto. now apply fair2_tail in F.
Qed.

(** ** Handles and Hashtags *)

Lemma handles_good U : sane U -> good U "@" legalHandle.
Proof.
  intros S. split; [discriminate|split].
  - intros c. apply (single_not_word U S 64%N); [reflexivity|apply S].
  - apply (merged_same_word U S 64%N); [discriminate|apply at_runes|apply S|now apply handle_no_space].
Qed.
Lemma hashtags_good U : sane U -> good U "#" (legalHashtag U).
Proof.
  intros S. split; [discriminate|split].
  - intros c. apply (single_not_word U S 35%N); [reflexivity|apply S].
  - apply (merged_same_word U S 35%N); [discriminate|apply hash_runes|apply S|now apply hashtag_no_space].
Qed.

Lemma C68_lemma U : sane U -> uIsLetter U 64 = false -> forall s l, Yields s l -> Forall (made U) l ->
  (forall a c b d, l = a ++ c :: b :: d ->
     (tvalue c = "@"%string -> legalHandle (tvalue b) = true \/ (tvalue b <> "@"%string /\ tvalue b <> "#"%string /\ ~ word b)) /\
     (tvalue c = "#"%string -> legalHashtag U (tvalue b) = true \/ (tvalue b <> "@"%string /\ tvalue b <> "#"%string /\ ~ word b))) ->
  exists l', Yields (Handles U (Hashtags U s)) l' /\ Yields (Hashtags U (Handles U s)) l'.
Proof.
  intros S LA s l Y M F. pose proof (handles_good U S) as G1. pose proof (hashtags_good U S) as G2.
  pose proof (proj1 G1) as NE1. pose proof (proj1 G2) as NE2.
  pose proof (Sigil_yields U "@" legalHandle NE1 _ _ Y) as Y1. pose proof (Sigil_yields U "#" (legalHashtag U) NE2 _ _ Y) as Y2.
  rewrite (je_out U _ _ _ G1 l None false (le_n _) M eq_refl) in Y1. rewrite (je_out U _ _ _ G2 l None false (le_n _) M eq_refl) in Y2.
  pose proof (je_made U "@" legalHandle _ NE1 l false (le_n _) M) as Md1. pose proof (je_made U "#" (legalHashtag U) _ NE2 l false (le_n _) M) as Md2.
  apply (Sigil_yields U "#" (legalHashtag U) NE2) in Y1. apply (Sigil_yields U "@" legalHandle NE1) in Y2.
  rewrite (je_out U _ _ _ G2 _ None false (le_n _) Md1 eq_refl) in Y1. rewrite (je_out U _ _ _ G1 _ None false (le_n _) Md2 eq_refl) in Y2.
  exists (je U "@" legalHandle false (je U "#" (legalHashtag U) false l)). split; [exact Y2|].
  rewrite (je_commute U "@" "#" legalHandle (legalHashtag U) (length l) G1 G2 ltac:(discriminate) eq_refl); [exact Y1|..].
  - unfold legalHashtag. cbn. exact LA.
  - intros v. discriminate.
  - intros v. discriminate.
  - apply le_n.
  - exact M.
  - exact F.
Qed.

Definition mixed : list token := [tok "@"; tok "#"; tok "b"; tok "@"; tok "x"].

Lemma mixed_handles : Yields (Handles go_unicode (Hashtags go_unicode (source mixed None))) [tok "@"; lem "#b"; lem "@x"].
Proof.
  pose proof (source_yields mixed) as Y.
  apply (Sigil_yields go_unicode "#" (legalHashtag go_unicode) ltac:(discriminate)) in Y.
  apply (Sigil_yields go_unicode "@" legalHandle ltac:(discriminate)) in Y.
  match type of Y with Yields _ ?r => let v := eval vm_compute in r in change r with v in Y end. exact Y.
Qed.
Lemma mixed_hashtags : Yields (Hashtags go_unicode (Handles go_unicode (source mixed None))) [tok "@"; lem "#b"; tok "@"; tok "x"].
Proof.
  pose proof (source_yields mixed) as Y.
  apply (Sigil_yields go_unicode "@" legalHandle ltac:(discriminate)) in Y.
  apply (Sigil_yields go_unicode "#" (legalHashtag go_unicode) ltac:(discriminate)) in Y.
  match type of Y with Yields _ ?r => let v := eval vm_compute in r in change r with v in Y end. exact Y.
Qed.

Lemma C68_refutation : ~ (forall U s l l', sane U -> Yields s l -> Forall (made U) l -> Yields (Handles U (Hashtags U s)) l' -> Yields (Hashtags U (Handles U s)) l').
Proof.
  intros H. assert (M : Forall (made go_unicode) mixed) by (repeat constructor; vm_compute; reflexivity).
  pose proof (H _ _ _ _ go_sane (source_yields mixed) M mixed_handles) as Y. pose proof (Yields_inj _ _ _ Y mixed_hashtags) as E. discriminate E.
Qed.

(** ** Fold and stop words twice *)

Lemma fold_stable_token U t t' :
  match FoldString (tvalue t) with (f, true) => lemma_of U f t' | (_, false) => t' = t end -> snd (FoldString (tvalue t')) = false.
Proof.
  destruct (FoldString (tvalue t)) as [f [|]] eqn:E.
  - intros (-> & _). destruct (C20_stable_lemma _ _ E) as (_ & _ & ->). reflexivity.
  - intros ->. now rewrite E.
Qed.

Lemma fold_twice U s l :
  (Yields s l -> exists l', Yields (Fold U s) l' /\ Yields (Fold U (Fold U s)) l') /\
  (forall e, Fails s l e -> exists l', Fails (Fold U s) l' e /\ Fails (Fold U (Fold U s)) l' e).
Proof.
  destruct (C24_lemma U s l) as (l' & F & Y & X & _). destruct (C24_lemma U (Fold U s) l') as (l2 & F2 & Y2 & X2 & _).
  assert (E : l2 = l').
  { clear Y X Y2 X2. revert l2 F2. induction F as [|t t' l l' H F IH]; intros l2 F2; inversion F2; subst; [reflexivity|]. f_equal; [|now apply IH].
    apply fold_stable_token in H. destruct (FoldString (tvalue t')) as [f b]. cbn in H. subst b. assumption. }
  subst l2. split; [intros H|intros e H]; exists l'; auto.
Qed.

Lemma filter_twice {A} (f : A -> bool) l : filter f (filter f l) = filter f l.
Proof. induction l as [|x l IH]; cbn; [reflexivity|]. destruct (f x) eqn:E; cbn; rewrite ?E, ?IH; reflexivity. Qed.

Lemma stopwords_twice U words ic s l : let F := Stopwords U words ic in
  (Yields s l -> exists l', Yields (F s) l' /\ Yields (F (F s)) l') /\ (forall e, Fails s l e -> exists l', Fails (F s) l' e /\ Fails (F (F s)) l' e).
Proof.
  intros F. set (key := fun v => if ic then strings_ToLower U v else v).
  set (keep := fun t => negb (existsb (fun w => String.eqb (key w) (key (tvalue t))) words)).
  assert (K : forall t, keep t = true <-> ~ exists w, In w words /\ key w = key (tvalue t)).
  { intros t. unfold keep. rewrite Bool.negb_true_iff. split.
    - intros H (w & I & E). assert (X : existsb (fun w => String.eqb (key w) (key (tvalue t))) words = true) by (apply existsb_exists; exists w; split; [exact I|now apply String.eqb_eq]). congruence.
    - intros H. destruct (existsb _ words) eqn:X; [|reflexivity]. apply existsb_exists in X as (w & I & E). apply String.eqb_eq in E. destruct H. eauto. }
  destruct (C17_lemma U words ic keep s l K) as (Y & X & _). destruct (C17_lemma U words ic keep (F s) (filter keep l) K) as (Y2 & X2 & _).
  rewrite filter_twice in *. split; [intros H|intros e H]; exists (filter keep l); split; auto.
Qed.

Lemma C67_lemma U words ic sigil legal : sigil <> EmptyString -> forall F, In F [Fold U; Stopwords U words ic; Sigil U sigil legal; Handles U; Hashtags U] ->
  forall s l, (forall t, In t l -> tvalue t <> EmptyString) ->
  (Yields s l -> exists l', Yields (F s) l' /\ Yields (F (F s)) l') /\ (forall e, Fails s l e -> exists l', Fails (F s) l' e /\ Fails (F (F s)) l' e).
Proof.
  intros NE F I s l N. destruct I as [<-|[<-|[<-|[<-|[<-|[]]]]]].
  - apply fold_twice.
  - apply stopwords_twice.
  - apply sigil_twice; assumption.
  - apply sigil_twice; [discriminate|assumption].
  - apply sigil_twice; [discriminate|assumption].
Qed.
