(** * SoExact: the words of the Stack Overflow dictionary, exactly (C63) *)

From Coq Require Import ZArith Permutation.
From Verif Require Import Base Utf8 Unicode Ascii ContractionsGen Generators GenSpec SoSpec StreamProofs TokenProofs GenProofs GeneratorProofs SoGenProofs.

Lemma words_filtered t : words_of t = filtered (isynonyms t).
Proof.
  unfold words_of, filtered. rewrite (map_ext _ _ (fun s => eq_sym (spaced_with s))). f_equal. apply filter_ext. intros s.
  destruct (smem s ignore) eqn:E; destruct (in_dec string_dec s exceptions) as [I|N]; try reflexivity; exfalso.
  - apply N. now apply smem_In.
  - apply smem_false in E. now apply E.
Qed.

Lemma live_app a b t : live (a ++ b) t <-> live a t \/ live b t.
Proof.
  unfold live. split.
  - intros (p & I & X). apply in_app_or in I as [I|I]; [left|right]; eauto.
  - intros [(p & I & X)|(p & I & X)]; exists p; (split; [apply in_or_app; auto|exact X]).
Qed.

Lemma live_one p t : live [p] t <-> In t p /\ moderator t = false.
Proof. unfold live. split; [intros (q & [<-|[]] & X); exact X|intros X; exists p; split; [now left|exact X]]. Qed.

Section Exact.
Variable ps : list (list item).
Hypothesis NC : no_commas ps.
Hypothesis SC : synonyms_consistent ps.

Lemma words_comma t x : live ps t -> In x (words_of t) -> occurrences "," x = 0.
Proof. intros L. rewrite words_filtered, filtered_In. intros (s & I & _ & ->). rewrite occurrences_spaced. exact (proj2 (NC t L) s I). Qed.
Lemma name_comma t : live ps t -> occurrences "," (with_spaces (iname t)) = 0.
Proof. intros L. rewrite occurrences_spaced. exact (proj1 (NC t L)). Qed.

Lemma same_words t1 t2 : live ps t1 -> live ps t2 -> words_of t1 <> [] -> words_of t2 <> [] ->
  String.concat ", " (words_of t1) = String.concat ", " (words_of t2) -> words_of t1 = words_of t2.
Proof. intros L1 L2 N1 N2 E. apply concat_inj; auto; intros x I; [exact (words_comma _ _ L1 I)|exact (words_comma _ _ L2 I)]. Qed.

Lemma one_word t k : live ps t -> words_of t <> [] -> occurrences "," k = 0 -> String.concat ", " (words_of t) = k -> words_of t = [k].
Proof.
  intros L N O E. apply concat_inj; auto; [discriminate|intros x I; exact (words_comma _ _ L I)|intros x [<-|[]]; exact O].
Qed.

Lemma same_synonym t1 t2 w : live ps t1 -> live ps t2 -> In w (words_of t1) -> In w (words_of t2) -> iname t1 = iname t2.
Proof.
  rewrite !words_filtered, !filtered_In. intros L1 L2 (s1 & I1 & _ & E1) (s2 & I2 & _ & E2). apply (proj1 SC t1 t2 s1 s2); auto. congruence.
Qed.

(** The entries for the synonyms of the pages [qs], and for the names. *)
Definition syn (qs : list (list item)) (k c : string) : Prop :=
  exists t, live qs t /\ iname t = c /\ words_of t <> [] /\ k = String.concat ", " (words_of t).
Definition nam (qs : list (list item)) (k c : string) : Prop := exists t, iname t = c /\ name_listed qs t k.

Definition state (qs : list (list item)) (m : gmap) (seen : list string) : Prop :=
  (forall w, In w seen <-> exists t, live qs t /\ In w (words_of t)) /\
  (forall k c, In (k, c) m <-> syn qs k c \/ nam qs k c).

(** Within the first loop over a page, after the tags [done]. *)
Definition state1 (qs : list (list item)) (done : list item) (m : gmap) (seen : list string) : Prop :=
  (forall w, In w seen <-> exists t, live (qs ++ [done]) t /\ In w (words_of t)) /\
  (forall k c, In (k, c) m <-> syn (qs ++ [done]) k c \/ (nam qs k c /\ forall t, live [done] t -> words_of t <> [k])).

(** Within the second. *)
Definition state2 (qs : list (list item)) (p done : list item) (m : gmap) : Prop :=
  forall k c, In (k, c) m <-> syn (qs ++ [p]) k c \/ (nam qs k c /\ forall t, live [p] t -> words_of t <> [k]) \/
    (exists t, In t done /\ moderator t = false /\ iname t = c /\ k = with_spaces (iname t) /\ ~ In k exceptions /\ forall t', live (qs ++ [p]) t' -> ~ In k (words_of t')).

Lemma nam_comma qs k c : (forall t, live qs t -> live ps t) -> nam qs k c -> occurrences "," k = 0.
Proof. intros S (t & _ & -> & _ & a & p & b & -> & I & M & _). apply name_comma, S. exists p. split; [apply in_or_app; right; now left|auto]. Qed.

Lemma live_snoc qs done t t' : live (qs ++ [done ++ [t]]) t' <-> live (qs ++ [done]) t' \/ (t' = t /\ moderator t = false).
Proof.
  rewrite !live_app, !live_one, in_app_iff. cbn [In]. split.
  - intros [L|[[I|[->|[]]] M]]; auto.
  - intros [[L|[I M]]|[-> M]]; auto.
Qed.

Lemma synonyms_state qs its : forall done m seen, (forall t, live (qs ++ [done ++ its]) t -> live ps t) -> state1 qs done m seen ->
  state1 qs (done ++ its) (fst (synonyms_loop its m seen)) (snd (synonyms_loop its m seen)).
Proof.
  induction its as [|t its IH]; intros done m seen S St; cbn [synonyms_loop]; [now rewrite app_nil_r|].
  assert (Sk : done ++ t :: its = (done ++ [t]) ++ its) by now rewrite <- app_assoc.
  assert (Skip : (forall w, ~ (moderator t = false /\ In w (words_of t))) -> state1 qs (done ++ [t]) m seen).
  { intros N. destruct St as [A B]. split.
    - intros w. rewrite A. split.
      + intros (t' & L & I). exists t'. split; [|exact I]. apply live_snoc. now left.
      + intros (t' & L & I). apply live_snoc in L as [L|[-> M]]; [eauto|]. exfalso. exact (N w (conj M I)).
    - intros k c. rewrite B. split.
      + intros [(t' & L & X)|[Nm F]]; [left; exists t'; split; [apply live_snoc; now left|exact X]|right]. split; [exact Nm|].
        intros t' L E. apply live_one in L as [I M]. apply in_app_or in I as [I|[<-|[]]]; [apply (F t'); [now apply live_one|exact E]|].
        apply (N k). rewrite E. split; [exact M|now left].
      + intros [(t' & L & X)|[Nm F]].
        * apply live_snoc in L as [L|[-> M]]; [left; exists t'; auto|]. exfalso. destruct X as (_ & Ne & _). destruct (words_of t) as [|w l] eqn:W; [congruence|]. apply (N w). split; [exact M|now left].
        * right. split; [exact Nm|]. intros t' L E. apply (F t'); [|exact E]. apply live_one in L as [I M]. apply live_one. split; [apply in_or_app; now left|exact M]. }
  rewrite Sk in S |- *.
  destruct (moderator t) eqn:Mo; [apply IH; auto; apply Skip; intros w [X _]; congruence|].
  destruct (Nat.eqb (length (isynonyms t)) 0) eqn:E1.
  { apply IH; auto. apply Skip. intros w [_ I]. rewrite words_filtered in I. apply filtered_In in I as (s & I & _). destruct (isynonyms t); [destruct I|discriminate]. }
  destruct (Nat.eqb (length (filtered (isynonyms t))) 0) eqn:E2.
  { apply IH; auto. apply Skip. intros w [_ I]. rewrite words_filtered in I. destruct (filtered (isynonyms t)); [destruct I|discriminate]. }
  rewrite join_concat, <- words_filtered. rewrite <- words_filtered in E2. assert (Ne : words_of t <> []) by (intros X; rewrite X in E2; discriminate).
  apply IH; auto. destruct St as [A B].
  assert (Lt : live ps t). { apply S. apply live_app. right. apply live_one. split; [|exact Mo]. apply in_or_app. left. apply in_or_app. right. now left. }
  assert (Sd : forall t', live (qs ++ [done]) t' -> live ps t').
  { intros t' L. apply S. apply live_app in L as [L|L]; apply live_app; [now left|right]. apply live_one in L as [I M]. apply live_one. split; [|exact M]. apply in_or_app. left. apply in_or_app. now left. }
  assert (Sq : forall t', live qs t' -> live ps t') by (intros t' L; apply Sd, live_app; now left).
  split.
  - intros w. rewrite in_app_iff, A. split.
    + intros [I|(t' & L & I)]; [exists t|exists t']; (split; [apply live_snoc|exact I]); auto.
    + intros (t' & L & I). apply live_snoc in L as [L|[-> _]]; eauto.
  - intros k c. rewrite gset_In, B. split.
    + intros [[-> ->]|[Nk [(t' & L & X)|[Nm F]]]].
      * left. exists t. repeat split; auto. apply live_snoc. auto.
      * left. exists t'. split; [apply live_snoc; now left|exact X].
      * right. split; [exact Nm|]. intros t' L E. apply live_one in L as [I M]. apply in_app_or in I as [I|[<-|[]]].
        -- apply (F t'); [now apply live_one|exact E].
        -- apply Nk. rewrite E. reflexivity.
    + intros [(t' & L & Ec & Ne' & Ek)|[Nm F]].
      * destruct (string_dec k (String.concat ", " (words_of t))) as [->|D].
        -- left. split; [reflexivity|]. rewrite <- Ec. apply live_snoc in L as [L|[-> _]]; [|reflexivity].
           pose proof (same_words t t' Lt (Sd _ L) Ne Ne' Ek) as W. destruct (words_of t) as [|w l] eqn:Wt; [congruence|].
           symmetry. apply (same_synonym t t' w); auto; [rewrite Wt; now left|rewrite <- W; now left].
        -- right. split; [exact D|]. left. exists t'. apply live_snoc in L as [L|[-> _]]; [auto|contradiction].
      * assert (D : k <> String.concat ", " (words_of t)).
        { intros E. apply (F t); [apply live_one; split; [apply in_or_app; right; now left|exact Mo]|]. apply one_word; auto. eapply nam_comma; eauto. }
        right. split; [exact D|right]. split; [exact Nm|]. intros t' L E. apply (F t'); [|exact E]. apply live_one in L as [I M]. apply live_one. split; [apply in_or_app; now left|exact M].
Qed.

Lemma names_state qs p seen its : (forall w, In w seen <-> exists t, live (qs ++ [p]) t /\ In w (words_of t)) -> (forall t, live (qs ++ [p]) t -> live ps t) ->
  forall done m, p = done ++ its -> state2 qs p done m -> state2 qs p p (names_loop its m seen).
Proof.
  intros A S. induction its as [|t its IH]; intros done m E St; cbn [names_loop]; [rewrite app_nil_r in E; now subst done|].
  assert (E' : p = (done ++ [t]) ++ its) by (rewrite <- app_assoc; exact E).
  assert (It : In t p) by (rewrite E; apply in_or_app; right; now left).
  assert (Skip : ~ (moderator t = false /\ ~ In (with_spaces (iname t)) exceptions /\ forall t', live (qs ++ [p]) t' -> ~ In (with_spaces (iname t)) (words_of t')) -> state2 qs p (done ++ [t]) m).
  { intros N k c. rewrite (St k c). split; (intros [H|[H|(t' & I & M & Ec & Ek & X & W)]]; [auto|auto|right; right; exists t']).
    - split; [apply in_or_app; now left|auto].
    - apply in_app_or in I as [I|[<-|[]]]; [auto 10|]. exfalso. subst k. auto. }
  destruct (moderator t) eqn:Mo; [apply (IH (done ++ [t])); auto; apply Skip; intros [X _]; congruence|].
  rewrite spaced_with. destruct (smem (with_spaces (iname t)) ignore) eqn:E1.
  { apply (IH (done ++ [t])); auto. apply Skip. intros (_ & X & _). apply X. now apply smem_In. }
  destruct (smem (with_spaces (iname t)) seen) eqn:E2.
  { apply (IH (done ++ [t])); auto. apply Skip. intros (_ & _ & X). apply smem_In in E2. apply A in E2 as (t' & L & I). exact (X t' L I). }
  apply smem_false in E1. apply smem_false in E2.
  assert (Lt : live ps t) by (apply S, live_app; right; now apply live_one).
  assert (Fr : forall t', live (qs ++ [p]) t' -> ~ In (with_spaces (iname t)) (words_of t')) by (intros t' L I; apply E2, A; eauto).
  apply (IH (done ++ [t])); auto. intros k c. rewrite gset_In, (St k c). split.
  - intros [[-> ->]|[Nk [H|[H|(t' & I & M & X)]]]]; auto.
    + right. right. exists t. split; [apply in_or_app; right; now left|]. repeat split; auto.
    + right. right. exists t'. split; [apply in_or_app; now left|]. tauto.
  - intros [H|[H|(t' & I & M & Ec & Ek & X & W)]].
    + right. split; [|auto]. destruct H as (t' & L & _ & Ne & ->). intros D. apply (Fr t' L).
      rewrite (one_word t' (with_spaces (iname t)) (S _ L) Ne (name_comma _ Lt) D). now left.
    + destruct (string_dec k (with_spaces (iname t))) as [->|D]; [|auto]. left. split; [reflexivity|]. destruct H as [(t' & <- & Ek & _ & a & q & b & Eq & I & M & _) _].
      apply (proj2 SC); auto. apply S, live_app. left. exists q. rewrite Eq. split; [apply in_or_app; right; now left|auto].
    + apply in_app_or in I as [I|[<-|[]]]; [|left; split; auto].
      destruct (string_dec k (with_spaces (iname t))) as [->|D]; [|right; split; [exact D|right; right; exists t'; auto 10]]. left. split; [reflexivity|]. rewrite <- Ec.
      apply (proj2 SC); auto. apply S, live_app. right. apply live_one. split; [rewrite E; apply in_or_app; now left|exact M].
Qed.

Lemma split_snoc {A} (l : list A) x a y b : l ++ [x] = a ++ y :: b -> (b = [] /\ l = a /\ x = y) \/ exists b', b = b' ++ [x] /\ l = a ++ y :: b'.
Proof.
  destruct b as [|z b] using rev_ind; intros E.
  - apply app_inj_tail in E as [-> ->]. auto.
  - right. exists b. change (a ++ y :: b ++ [z]) with (a ++ (y :: b) ++ [z]) in E. rewrite app_assoc in E. apply app_inj_tail in E as [-> ->]. auto.
Qed.

Lemma nam_snoc qs p k c : nam (qs ++ [p]) k c <->
  (nam qs k c /\ forall t, live [p] t -> words_of t <> [k]) \/
  (exists t, In t p /\ moderator t = false /\ iname t = c /\ k = with_spaces (iname t) /\ ~ In k exceptions /\ forall t', live (qs ++ [p]) t' -> ~ In k (words_of t')).
Proof.
  split.
  - intros (t & Ec & Ek & X & a & q & b & E & I & M & W & O). apply split_snoc in E as [(-> & -> & ->)|(b' & -> & ->)].
    + right. exists t. repeat split; auto.
    + left. split.
      * exists t. split; [exact Ec|]. split; [exact Ek|]. split; [exact X|]. exists a, q, b'. repeat split; auto. intros t' L. apply O, live_app. now left.
      * intros t' L. apply O, live_app. now right.
  - intros [[(t & Ec & Ek & X & a & q & b & -> & I & M & W & O) F]|(t & I & M & Ec & Ek & X & W)]; exists t; (split; [exact Ec|]; split; [exact Ek|]; split; [exact X|]).
    + exists a, q, (b ++ [p]). split; [now rewrite <- app_assoc|]. repeat split; auto. intros t' L. apply live_app in L as [L|L]; auto.
    + exists qs, p, []. repeat split; auto. intros t' (q & [] & _).
Qed.

Lemma run_state todo : forall qs m seen, ps = qs ++ todo -> state qs m seen -> state ps (fst (run_pages todo m seen)) (snd (run_pages todo m seen)).
Proof.
  induction todo as [|p todo IH]; intros qs m seen E St; cbn [run_pages]; [rewrite app_nil_r in E; now subst qs|].
  assert (S : forall t, live (qs ++ [p]) t -> live ps t).
  { intros t L. rewrite E. apply live_app in L as [L|L]; apply live_app; [now left|right]. apply live_one in L as [I M]. exists p. split; [now left|auto]. }
  assert (S1 : state1 qs [] m seen).
  { destruct St as [A B]. assert (Em : forall t, live (qs ++ [[]]) t <-> live qs t).
    { intros t. rewrite live_app, live_one. cbn. tauto. }
    split.
    - intros w. rewrite A. split; intros (t & L & I); exists t; (split; [now apply Em|exact I]).
    - intros k c. rewrite B. split.
      + intros [(t & L & X)|N]; [left; exists t; split; [now apply Em|exact X]|right]. split; [exact N|]. intros t L. apply live_one in L as [[] _].
      + intros [(t & L & X)|[N _]]; [left; exists t; split; [now apply Em|exact X]|right; exact N]. }
  pose proof (synonyms_state qs p [] m seen S S1) as S2. cbn [app] in S2. destruct (synonyms_loop p m seen) as [m1 s1]. cbn [fst snd] in S2. destruct S2 as [A B].
  apply (IH (qs ++ [p])); [rewrite <- app_assoc; exact E|]. split; [exact A|].
  assert (S3 : state2 qs p [] m1). { intros k c. rewrite B. split; [intros [H|H]; auto|intros [H|[H|(t & [] & _)]]; auto]. }
  pose proof (names_state qs p s1 p A S [] m1 eq_refl S3) as S4. intros k c. rewrite (S4 k c), nam_snoc. reflexivity.
Qed.

Lemma words_listed w c : listed (fst (run_pages ps [] [])) w c <->
  exists t, live ps t /\ iname t = c /\ (In w (words_of t) \/ name_listed ps t w).
Proof.
  assert (St : state ps (fst (run_pages ps [] [])) (snd (run_pages ps [] []))).
  { apply (run_state ps []); [reflexivity|]. split.
    - intros x. split; [intros []|intros (t & (p & [] & _) & _)].
    - intros k c0. split; [intros []|]. intros [(t & (p & [] & _) & _)|(t & _ & _ & _ & a & p & b & E & _)]. destruct a; discriminate. }
  destruct St as [_ B]. split.
  - intros (ws & O & I & J). apply B in J as [(t & L & Ec & Ne & Ek)|(t & Ec & N)].
    + exists t. split; [exact L|]. split; [exact Ec|]. left. assert (ws = words_of t) as <-; [|exact I].
      apply concat_inj; auto; [intros ->; destruct I|intros x; apply (words_comma t x L)].
    + pose proof N as (Ek & _ & a & p & b & E & It & M & _).
      assert (L : live ps t) by (exists p; rewrite E; split; [apply in_or_app; right; now left|auto]).
      exists t. split; [exact L|]. split; [exact Ec|]. right.
      assert (ws = [String.concat ", " ws]) as X.
      { apply concat_inj; auto; [intros ->; destruct I|discriminate|]. intros x [<-|[]]. rewrite Ek. now apply name_comma. }
      rewrite X in I. destruct I as [<-|[]]. exact N.
  - intros (t & L & Ec & [I|N]).
    + exists (words_of t). split; [intros x; apply (words_comma t x L)|]. split; [exact I|]. apply B. left. exists t. repeat split; auto. intros X. rewrite X in I. destruct I.
    + exists [w]. split; [intros x [<-|[]]; rewrite (proj1 N); now apply name_comma|]. split; [now left|]. apply B. right. exists t. auto.
Qed.

Lemma twice_listed : (exists w c1 c2, listed (fst (run_pages ps [] [])) w c1 /\ listed (fst (run_pages ps [] [])) w c2 /\ c1 <> c2) <->
  exists a p b t t', ps = a ++ p :: b /\ In t p /\ moderator t = false /\ live b t' /\ iname t' <> iname t /\
    ~ In (with_spaces (iname t)) exceptions /\ In (with_spaces (iname t)) (words_of t') /\
    (forall u, live (a ++ [p]) u -> ~ In (with_spaces (iname t)) (words_of u)) /\ (forall u, live b u -> words_of u <> [with_spaces (iname t)]).
Proof.
  split.
  - intros (w & c1 & c2 & L1 & L2 & D).
    assert (K : forall t t', live ps t -> live ps t' -> iname t <> iname t' -> name_listed ps t w -> In w (words_of t') -> exists a p b t t', ps = a ++ p :: b /\ In t p /\ moderator t = false /\ live b t' /\ iname t' <> iname t /\
      ~ In (with_spaces (iname t)) exceptions /\ In (with_spaces (iname t)) (words_of t') /\
      (forall u, live (a ++ [p]) u -> ~ In (with_spaces (iname t)) (words_of u)) /\ (forall u, live b u -> words_of u <> [with_spaces (iname t)])).
    { intros t t' L L' Di (-> & X & a & p & b & E & I & M & W & O) I'. exists a, p, b, t, t'. repeat split; auto.
      rewrite E in L'. change (a ++ p :: b) with (a ++ [p] ++ b) in L'. rewrite app_assoc in L'. apply live_app in L' as [L'|L']; [|exact L']. exfalso. exact (W _ L' I'). }
    apply words_listed in L1 as (t1 & L1 & <- & [W1|N1]); apply words_listed in L2 as (t2 & L2 & <- & [W2|N2]).
    + exfalso. apply D. eapply same_synonym; eauto.
    + apply (K t2 t1); auto.
    + apply (K t1 t2); auto.
    + exfalso. apply D. apply (proj2 SC); auto. destruct N1 as [<- _], N2 as [E _]. exact E.
  - intros (a & p & b & t & t' & E & I & M & L & D & X & I' & W & O). exists (with_spaces (iname t)), (iname t), (iname t'). rewrite !words_listed.
    split; [|split; [|congruence]].
    + exists t. split; [exists p; rewrite E; split; [apply in_or_app; right; now left|auto]|]. split; [reflexivity|]. right. split; [reflexivity|]. split; [exact X|]. exists a, p, b. auto.
    + exists t'. split; [|auto]. rewrite E. change (a ++ p :: b) with (a ++ [p] ++ b). apply live_app. right. apply live_app. now right.
Qed.
End Exact.

Lemma C63_words_lemma api abort ps m : fetched api "stackoverflow" 1 20 ps -> no_commas ps -> synonyms_consistent ps -> so_mappings_of api abort = inl m ->
  forall w c, listed m w c <-> exists t, live ps t /\ iname t = c /\ (In w (words_of t) \/ name_listed ps t w).
Proof. intros F NC SC E. rewrite (so_run _ _ _ F) in E. injection E as <-. now apply words_listed. Qed.

Lemma C63_exact_lemma api abort ps m : fetched api "stackoverflow" 1 20 ps -> no_commas ps -> synonyms_consistent ps -> so_mappings_of api abort = inl m ->
  ((forall w c1 c2, listed m w c1 -> listed m w c2 -> c1 = c2) <->
   ~ exists a p b t t', ps = a ++ p :: b /\ In t p /\ moderator t = false /\ live b t' /\ iname t' <> iname t /\
    ~ In (with_spaces (iname t)) exceptions /\ In (with_spaces (iname t)) (words_of t') /\
    (forall u, live (a ++ [p]) u -> ~ In (with_spaces (iname t)) (words_of u)) /\ (forall u, live b u -> words_of u <> [with_spaces (iname t)])).
Proof.
  intros F NC SC E. rewrite (so_run _ _ _ F) in E. injection E as <-. rewrite <- (twice_listed ps NC SC). split.
  - intros H (w & c1 & c2 & A & B & D). eauto.
  - intros H w c1 c2 A B. destruct (string_dec c1 c2) as [|D]; [assumption|]. exfalso. apply H. exists w, c1, c2. auto.
Qed.
