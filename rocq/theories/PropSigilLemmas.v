(** * Lemmas behind C31 - C33 *)

From Verif Require Import Base Utf8 Unicode UnicodeData Token Stream StreamSpec Filters FilterSpec
  StreamProofs Utf8Proofs TokenProofs FilterProofs Sources.

Section SigilLemmas.
Variable U : unicode.
Variable sigil : string.
Variable legal : string -> bool.
Hypothesis sigil_ne : sigil <> EmptyString.

Lemma merged_lemma t : lemma_of U (sigil ++ tvalue t)%string (merged U sigil t).
Proof.
  pose proof (merged_ok U sigil sigil_ne t) as N. destruct (NewToken_value _ _ _ _ N) as (A & B & _).
  repeat split; auto.
Qed.

Lemma sigil_out_joined n : forall l prev, length l <= n -> joined U sigil legal l (sigil_out U sigil legal false prev l).
Proof.
  induction n as [|n IH]; intros l prev L.
  - destruct l; [constructor|cbn in L; lia].
  - destruct l as [|c l]; cbn [sigil_out]; [constructor|]. cbn in L.
    destruct (boundary_ok prev && seqb (tvalue c) sigil) eqn:B.
    + apply andb_true_iff in B. destruct B as [_ B]. apply seqb_eq in B. destruct l as [|b l].
      * apply Join_keep. constructor.
      * cbn in L. destruct (legal (tvalue b)) eqn:Lg.
        -- apply Join_pair; auto using merged_lemma. apply IH. lia.
        -- apply Join_keep, Join_keep. apply IH. lia.
    + apply Join_keep. apply IH. lia.
Qed.

Lemma sigil_out_failing n : forall l prev, length l <= n ->
  sigil_out U sigil legal true prev l = sigil_out U sigil legal false prev l \/
  exists l0 c, l = l0 ++ [c] /\ tvalue c = sigil /\
    joined U sigil legal l0 (sigil_out U sigil legal true prev l).
Proof.
  induction n as [|n IH]; intros l prev L.
  - destruct l; [now left|cbn in L; lia].
  - destruct l as [|c l]; [now left|]. cbn [sigil_out]. cbn in L.
    destruct (boundary_ok prev && seqb (tvalue c) sigil) eqn:B.
    + apply andb_true_iff in B. destruct B as [_ B]. apply seqb_eq in B. destruct l as [|b l].
      * right. exists [], c. split; [reflexivity|]. split; [exact B|constructor].
      * cbn in L. destruct (legal (tvalue b)) eqn:Lg.
        -- destruct (IH l (Some (merged U sigil b)) ltac:(lia)) as [->|(l0 & x & -> & X & J)]; [now left|right].
           exists (c :: b :: l0), x. split; [reflexivity|]. split; [exact X|]. apply Join_pair; auto using merged_lemma.
        -- destruct (IH l (Some c) ltac:(lia)) as [->|(l0 & x & -> & X & J)]; [now left|right].
           exists (c :: b :: l0), x. split; [reflexivity|]. split; [exact X|]. now apply Join_keep, Join_keep.
    + destruct (IH l (Some c) ltac:(lia)) as [->|(l0 & x & -> & X & J)]; [now left|right].
      exists (c :: l0), x. split; [reflexivity|]. split; [exact X|]. now apply Join_keep.
Qed.

Lemma joined_text l l' : joined U sigil legal l l' -> text l' = text l.
Proof.
  induction 1 as [|t l l' J IH|c b m l l' C L (M & _) J IH]; rewrite ?text_cons, ?IH; [reflexivity|reflexivity|].
  rewrite M, C. apply sapp_assoc.
Qed.

Lemma C31_lemma' (s : TokenStream) (l : list token) :
  (Yields s l -> exists l', Yields (Sigil U sigil legal s) l' /\ joined U sigil legal l l' /\ text l' = text l) /\
  (forall e, Fails s l e -> exists l0 lost l', l = l0 ++ lost /\ (lost = [] \/ exists c, lost = [c] /\ tvalue c = sigil) /\
     Fails (Sigil U sigil legal s) l' e /\ joined U sigil legal l0 l' /\ text l' = text l0).
Proof.
  split.
  - intros Y. exists (sigil_out U sigil legal false None l).
    pose proof (sigil_out_joined _ l None (le_n _)) as J.
    split; [now apply Sigil_yields|]. split; [exact J|now apply joined_text].
  - intros e Y. pose proof (Sigil_fails U sigil legal sigil_ne _ _ _ Y) as Z.
    destruct (sigil_out_failing _ l None (le_n _)) as [E|(l0 & c & E & C & J)].
    + pose proof (sigil_out_joined _ l None (le_n _)) as J. rewrite E in Z.
      exists l, [], (sigil_out U sigil legal false None l). rewrite app_nil_r.
      split; [reflexivity|]. split; [now left|]. split; [exact Z|]. split; [exact J|now apply joined_text].
    + exists l0, [c], (sigil_out U sigil legal true None l). split; [exact E|]. split; [eauto|].
      split; [exact Z|]. split; [exact J|now apply joined_text].
Qed.

(** *** C32 *)

Definition wordb (t : token) : bool := negb (tpunct t || tspace t).
Lemma wordb_spec t : wordb t = true <-> word t.
Proof. unfold wordb, word. destruct (tpunct t), (tspace t); cbn; intuition congruence. Qed.

(** Every token spelling the sigil is not a word; joining keeps whether a name is a word. *)
Hypothesis sigil_not_word : forall c, made U c -> tvalue c = sigil -> wordb c = false.
Hypothesis merged_word : forall b, made U b -> legal (tvalue b) = true -> wordb (merged U sigil b) = wordb b.

(** What may follow a sigil. *)
Definition fair_pair (c b : token) : Prop :=
  tvalue c = sigil -> legal (tvalue b) = true \/ (tvalue b <> sigil /\ ~ word b).

Definition fair (l : list token) : Prop := forall a c b d, l = a ++ c :: b :: d -> fair_pair c b.

Lemma fair_tail c l : fair (c :: l) -> fair l.
Proof. intros H a x b d E. apply (H (c :: a) x b d). now rewrite E. Qed.

Definition after_word (prev : option token) : Prop := exists p, prev = Some p /\ word p.

Lemma boundary_after prev : boundary_ok prev = false <-> after_word prev.
Proof.
  unfold after_word, boundary_ok, word. destruct prev as [p|].
  - destruct (tspace p) eqn:S, (tpunct p) eqn:P; cbn; split; intros H; try discriminate;
      try (destruct H as (q & Q & A & B); inversion Q; subst; congruence); eauto.
  - split; [discriminate|]. intros (p & H & _). discriminate.
Qed.

Lemma JE_equiv (w w' : Prop) l l' : (w <-> w') -> joined_exactly U sigil legal w l l' -> joined_exactly U sigil legal w' l l'.
Proof.
  clear sigil_not_word merged_word sigil_ne. intros E J. inversion J; subst.
  - constructor.
  - apply JE_pair; auto. tauto.
  - apply JE_keep; auto. destruct H as [H|H]; [left; tauto|now right].
Qed.

Lemma after_some p : after_word (Some p) <-> word p.
Proof. unfold after_word. split; [intros (q & E & W); inversion E; now subst|eauto]. Qed.

Lemma sigil_out_exact n : forall l prev, length l <= n -> Forall (made U) l -> fair l ->
  joined_exactly U sigil legal (after_word prev) l (sigil_out U sigil legal false prev l).
Proof.
  induction n as [|n IH]; intros l prev L M F.
  - destruct l; [constructor|cbn in L; lia].
  - destruct l as [|c l]; cbn [sigil_out]; [constructor|]. cbn in L. inversion M as [|? ? Mc Ml]; subst.
    destruct (boundary_ok prev) eqn:B; cbn [andb].
    + assert (NW : ~ after_word prev) by (rewrite <- boundary_after; congruence).
      destruct (seqb (tvalue c) sigil) eqn:C.
      * apply seqb_eq in C. destruct l as [|b l].
        -- apply JE_keep; [auto|constructor].
        -- inversion Ml as [|? ? Mb Ml']; subst. cbn in L. destruct (legal (tvalue b)) eqn:Lg.
           ++ apply JE_pair; auto using merged_lemma.
              eapply JE_equiv; [|apply IH; [lia|exact Ml'|]].
              ** rewrite after_some, <- !wordb_spec. now rewrite merged_word.
              ** now apply fair_tail, fair_tail in F.
           ++ assert (Fb : tvalue b <> sigil /\ ~ word b).
              { destruct (F [] c b l eq_refl C) as [X|X]; [congruence|exact X]. }
              apply JE_keep; [right; right; right; exists b, l; auto|]. apply JE_keep; [tauto|].
              eapply JE_equiv; [|apply (IH l (Some c)); [lia|exact Ml'|]].
              ** rewrite after_some. pose proof (sigil_not_word c Mc C) as W. rewrite <- (wordb_spec c). rewrite W.
                 intuition congruence.
              ** now apply fair_tail, fair_tail in F.
      * apply JE_keep.
        -- right. left. intros X. rewrite X, seqb_refl in C. discriminate.
        -- eapply JE_equiv; [apply after_some|]. apply IH; [lia|exact Ml|now apply fair_tail in F].
    + apply boundary_after in B. apply JE_keep; [auto|].
      eapply JE_equiv; [apply after_some|]. apply IH; [lia|exact Ml|now apply fair_tail in F].
Qed.
End SigilLemmas.

Lemma joined_exactly_inj U sigil legal : forall l w w' l1 l2, (w <-> w') ->
  joined_exactly U sigil legal w l l1 -> joined_exactly U sigil legal w' l l2 -> l1 = l2.
Proof.
  intros l. remember (length l) as n eqn:Hn. assert (Hl : length l <= n) by lia. clear Hn. revert l Hl.
  induction n as [|n IH]; intros l Hl w w' l1 l2 E J1 J2.
  - destruct l; [|cbn in Hl; lia]. inversion J1; inversion J2; reflexivity.
  - inversion J1 as [|w1 c1 b1 m1 r1 o1 A1 A2 A3 A4 A5|w1 t1 r1 o1 A1 A2]; subst.
    + inversion J2; reflexivity.
    + inversion J2 as [|w2 c2 b2 m2 r2 o2 B1 B2 B3 B4 B5|w2 t2 r2 o2 B1 B2]; subst.
      * f_equal; [destruct A4 as (_ & _ & A4), B4 as (_ & _ & B4); congruence|].
        eapply IH; [|apply iff_refl|exact A5|exact B5]. cbn in Hl. lia.
      * exfalso. destruct B1 as [B1|[B1|[B1|(b & r & B1 & B3)]]]; [tauto|contradiction|discriminate|].
        inversion B1; subst. congruence.
    + inversion J2 as [|w2 c2 b2 m2 r2 o2 B1 B2' B3 B4 B5|w2 t2 r2 o2 B1 B2']; subst.
      * exfalso. destruct A1 as [A1|[A1|[A1|(b & r & A1 & A3)]]]; [tauto|contradiction|discriminate|].
        inversion A1; subst. congruence.
      * f_equal. eapply IH; [|apply iff_refl|exact A2|exact B2']. cbn in Hl. lia.
Qed.

(** *** The Twitter filters with the Unicode tables *)

Local Open Scope N_scope.

Lemma handle_char_spec r : handle_char r = true <-> handle_rune r.
Proof.
  unfold handle_char, handle_rune. rewrite !orb_true_iff, !in_range_spec, N.eqb_eq. tauto.
Qed.

Lemma handle_loop_spec rs : forall len,
  handle_loop len rs = true <-> (rs = [] \/ (len + length rs <= 15)%nat) /\ Forall handle_rune rs.
Proof.
  induction rs as [|r rs IH]; intros len; cbn [handle_loop].
  - split; [auto|reflexivity].
  - destruct (Nat.ltb_spec 15 (S len)) as [H|H].
    + split; [discriminate|]. intros [[A|A] _]; [discriminate|]. cbn in A. lia.
    + destruct (handle_char r) eqn:C.
      * apply handle_char_spec in C. rewrite IH. cbn [length]. split.
        -- intros [A B]. split; [right|constructor; auto]. destruct A as [->|A]; cbn; lia.
        -- intros [A B]. inversion B; subst. split; [|assumption]. destruct A as [A|A]; [discriminate|right; lia].
      * split; [discriminate|]. intros [_ B]. inversion B; subst. apply handle_char_spec in H2. congruence.
Qed.

Lemma C33_handle_lemma v : legalHandle v = true <-> (length (runes v) <= 15)%nat /\ Forall handle_rune (runes v).
Proof.
  unfold legalHandle. rewrite handle_loop_spec. cbn [Nat.add]. split; intros [A B]; split; auto.
  destruct A as [->|A]; [cbn; lia|exact A].
Qed.

Lemma hashtag_loop_spec U rs : hashtag_loop U rs = true <->
  Forall (fun r => uIsLetter U r = true \/ uIsNumber U r = true \/ r = 95) rs.
Proof.
  induction rs as [|r rs IH]; cbn [hashtag_loop]; [split; auto|].
  destruct (uIsLetter U r || uIsNumber U r || (r =? 95)) eqn:C.
  - rewrite !orb_true_iff, N.eqb_eq in C. rewrite IH. split; [intros; constructor; auto; tauto|].
    intros H. now inversion H.
  - split; [discriminate|]. intros H. inversion H; subst. rewrite !orb_false_iff, N.eqb_neq in C.
    destruct C as [[C1 C2] C3]. destruct H2 as [?|[?|?]]; congruence.
Qed.

Lemma C33_hashtag_lemma U v : legalHashtag U v = true <->
  (exists r, runes v = [r] /\ uIsLetter U r = true) \/
  (length (runes v) <> 1%nat /\ Forall (fun r => uIsLetter U r = true \/ uIsNumber U r = true \/ r = 95) (runes v)).
Proof.
  unfold legalHashtag. destruct (runes v) as [|r [|r2 rs]] eqn:E.
  - cbn. split; [intros _; right; split; [discriminate|constructor]|reflexivity].
  - cbn [length Nat.eqb hd]. split; [intros H; left; eauto|].
    intros [(x & X & Y)|[X _]]; [inversion X; now subst|congruence].
  - cbn [length Nat.eqb]. rewrite hashtag_loop_spec. split.
    + intros H. right. split; [cbn; lia|exact H].
    + intros [(x & X & _)|[_ X]]; [discriminate|exact X].
Qed.

Lemma range_mem_In l x : range_mem l x = true -> exists lo hi, In (lo, hi) l /\ lo <= x <= hi.
Proof.
  induction l as [|[lo hi] l IH]; cbn; [discriminate|].
  destruct (N.ltb_spec x lo); [discriminate|]. destruct (N.leb_spec x hi).
  - intros _. exists lo, hi. auto.
  - intros H1. destruct (IH H1) as (a & b & A & B). exists a, b. auto.
Qed.

Definition disjoint (l1 l2 : list (N * N)) : bool :=
  forallb (fun a => forallb (fun b : N * N => (snd a <? fst b) || (snd b <? fst a)) l2) l1.

Lemma disjoint_spec l1 l2 x : disjoint l1 l2 = true -> range_mem l1 x = true -> range_mem l2 x = true -> False.
Proof.
  intros D A B. apply range_mem_In in A, B. destruct A as (a & b & A1 & A2), B as (c & d & B1 & B2).
  unfold disjoint in D. rewrite forallb_forall in D. specialize (D _ A1). rewrite forallb_forall in D. specialize (D _ B1).
  cbn in D. apply orb_true_iff in D. rewrite !N.ltb_lt in D. lia.
Qed.

Lemma go_sane : sane go_unicode.
Proof.
  constructor; [vm_compute; reflexivity|vm_compute; reflexivity|vm_compute; reflexivity|vm_compute; reflexivity| |].
  - intros r H. destruct (uIsSpace go_unicode r) eqn:E; [|reflexivity]. exfalso. cbn [uIsSpace go_unicode] in E.
    apply range_mem_In in E. destruct E as (lo & hi & I & E). unfold handle_rune in H.
    assert (T : forallb (fun a : N * N => ((snd a <? 48) || (122 <? fst a))) white_space = true) by (vm_compute; reflexivity).
    rewrite forallb_forall in T. specialize (T _ I). cbn in T. apply orb_true_iff in T. rewrite !N.ltb_lt in T. lia.
  - intros r H. destruct (uIsSpace go_unicode r) eqn:E; [|reflexivity]. exfalso. cbn [uIsSpace uIsLetter uIsNumber go_unicode] in E, H. destruct H as [H|H].
    + eapply (disjoint_spec white_space gc_L r); [vm_compute; reflexivity|exact E|exact H].
    + eapply (disjoint_spec white_space gc_N r); [vm_compute; reflexivity|exact E|exact H].
Qed.

Section Twitter.
Variable U : unicode.
Hypothesis S : sane U.

Lemma single_not_word (r : N) (sigil : string) c : runes sigil = [r] -> uIsPunct U r = true ->
  made U c -> tvalue c = sigil -> wordb c = false.
Proof.
  intros R P M V. destruct (NewToken_class U _ _ _ (sane_cr _ S) (sane_lf _ S) M) as [C _].
  unfold wordb. replace (tpunct c) with true; [reflexivity|]. symmetry. apply C. rewrite V, R.
  intros x [<-|[]]. apply isPunct_spec. auto.
Qed.

Lemma merged_same_word (r : N) sigil (legal : string -> bool) : sigil <> EmptyString ->
  (forall v, runes (sigil ++ v) = r :: runes v) -> uIsPunct U r = true ->
  (forall v, legal v = true -> forall x, In x (runes v) -> uIsSpace U x = false) ->
  forall b, made U b -> legal (tvalue b) = true -> wordb (merged U sigil b) = wordb b.
Proof.
  intros NE R P SP b M L. unfold wordb. f_equal.
  pose proof (merged_ok U sigil NE b) as N.
  destruct (NewToken_class U _ _ _ (sane_cr _ S) (sane_lf _ S) M) as [C1 D1].
  destruct (NewToken_class U _ _ _ (sane_cr _ S) (sane_lf _ S) N) as [C2 D2].
  assert (Hne : exists x, In x (runes (tvalue b))).
  { destruct (runes (tvalue b)) as [|x xs] eqn:E; [|exists x; now left]. apply runes_nil in E.
    destruct (NewToken_value _ _ _ _ M) as (_ & _ & X). congruence. }
  destruct Hne as (x & Hx).
  assert (S1 : tspace b = false).
  { destruct (tspace b); [|reflexivity]. now rewrite <- (proj1 D1 eq_refl x Hx), (SP _ L x Hx). }
  assert (S2 : tspace (merged U sigil b) = false).
  { destruct (tspace (merged U sigil b)); [|reflexivity]. rewrite <- (proj1 D2 eq_refl x), (SP _ L x Hx); [reflexivity|].
    rewrite R. now right. }
  rewrite S1, S2, !orb_false_r. apply eq_true_iff_eq. rewrite C1, C2, R. split.
  - intros H y Hy. apply H. now right.
  - intros H y [<-|Hy]; [apply isPunct_spec; auto|auto].
Qed.

Lemma at_runes v : runes ("@" ++ v) = 64 :: runes v.
Proof. reflexivity. Qed.
Lemma hash_runes v : runes ("#" ++ v) = 35 :: runes v.
Proof. reflexivity. Qed.

Lemma handle_no_space v : legalHandle v = true -> forall x, In x (runes v) -> uIsSpace U x = false.
Proof.
  intros L x Hx. apply C33_handle_lemma in L. destruct L as [_ L]. rewrite Forall_forall in L.
  apply (sane_handle _ S). auto.
Qed.

Lemma hashtag_no_space v : legalHashtag U v = true -> forall x, In x (runes v) -> uIsSpace U x = false.
Proof.
  intros L x Hx. apply C33_hashtag_lemma in L. destruct L as [(r & E & L)|[_ L]].
  - rewrite E in Hx. destruct Hx as [<-|[]]. apply (sane_hashtag _ S). auto.
  - rewrite Forall_forall in L. destruct (L x Hx) as [H|[H| ->]].
    + apply (sane_hashtag _ S). auto.
    + apply (sane_hashtag _ S). auto.
    + apply (sane_handle _ S). unfold handle_rune. auto.
Qed.

Lemma C32_partial_lemma s l : Yields s l -> Forall (made U) l ->
  ((forall a c b d, l = a ++ c :: b :: d -> tvalue c = "@"%string ->
      legalHandle (tvalue b) = true \/ (tvalue b <> "@"%string /\ ~ word b)) ->
   exists l', Yields (Handles U s) l' /\ joined_exactly U "@" legalHandle False l l') /\
  ((forall a c b d, l = a ++ c :: b :: d -> tvalue c = "#"%string ->
      legalHashtag U (tvalue b) = true \/ (tvalue b <> "#"%string /\ ~ word b)) ->
   exists l', Yields (Hashtags U s) l' /\ joined_exactly U "#" (legalHashtag U) False l l').
Proof.
  intros Y M.
  assert (NA : ~ after_word None) by (intros (p & H & _); discriminate).
  split; intros F.
  - exists (sigil_out U "@" legalHandle false None l). split; [apply Sigil_yields; [discriminate|exact Y]|].
    assert (H1 : forall c, made U c -> tvalue c = "@"%string -> wordb c = false)
      by (intros c; apply (single_not_word 64); [reflexivity|apply S]).
    assert (H2 : forall b, made U b -> legalHandle (tvalue b) = true -> wordb (merged U "@" b) = wordb b)
      by (apply (merged_same_word 64); [discriminate|apply at_runes|apply S|apply handle_no_space]).
    assert (NE : "@"%string <> EmptyString) by discriminate.
    eapply JE_equiv; [|exact (sigil_out_exact U "@" legalHandle NE H1 H2 _ l None (le_n _) M F)]. tauto.
  - exists (sigil_out U "#" (legalHashtag U) false None l). split; [apply Sigil_yields; [discriminate|exact Y]|].
    assert (H1 : forall c, made U c -> tvalue c = "#"%string -> wordb c = false)
      by (intros c; apply (single_not_word 35); [reflexivity|apply S]).
    assert (H2 : forall b, made U b -> (legalHashtag U) (tvalue b) = true -> wordb (merged U "#" b) = wordb b)
      by (apply (merged_same_word 35); [discriminate|apply hash_runes|apply S|apply hashtag_no_space]).
    assert (NE : "#"%string <> EmptyString) by discriminate.
    eapply JE_equiv; [|exact (sigil_out_exact U "#" (legalHashtag U) NE H1 H2 _ l None (le_n _) M F)]. tauto.
Qed.
End Twitter.

Lemma C32_refutation :
  ~ (forall U s l, sane U -> Yields s l -> Forall (made U) l ->
     exists l', Yields (Handles U s) l' /\ joined_exactly U "@" legalHandle False l l').
Proof.
  intros H.
  assert (M : Forall (made go_unicode) [tok "@"; tok "@"; tok "foo"]).
  { constructor; [|constructor; [|constructor; [|constructor]]]; vm_compute; reflexivity. }
  destruct (H go_unicode _ _ go_sane (source_yields [tok "@"; tok "@"; tok "foo"]) M) as (l' & Y & J).
  assert (NE : "@"%string <> EmptyString) by discriminate.
  pose proof (Yields_inj _ _ _ Y (Sigil_yields go_unicode _ legalHandle NE _ _ (source_yields [tok "@"; tok "@"; tok "foo"]))) as E.
  match type of E with _ = ?r => let v := eval vm_compute in r in change r with v in E end. subst l'.
  inversion J as [|w c b m r o A1 A2 A3 A4 A5|w t r o A1 A2]; subst; clear J.
  - destruct A4 as (A4 & _). vm_compute in A4. discriminate.
  - inversion A2 as [|w c b m r o B1 B2 B3 B4 B5|w t r o B1 B2]; subst; clear A2.
    + destruct B4 as (B4 & _). vm_compute in B4. discriminate.
    + destruct B1 as [[B1 _]|[B1|[B1|(b & r & B1 & B3)]]].
      * vm_compute in B1. discriminate.
      * apply B1. reflexivity.
      * discriminate.
      * inversion B1; subst. vm_compute in B3. discriminate.
Qed.
