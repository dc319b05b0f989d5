(** * SoGenProofs: lemmas behind C61 - C63. *)

From Coq Require Import ZArith Permutation.
From Verif Require Import Base Utf8 Unicode Ascii ContractionsGen Generators GenSpec StreamProofs TokenProofs GenProofs GeneratorProofs.

(** ** Words *)

Lemma spaced_with s : spaced s = with_spaces s.
Proof.
  unfold spaced, with_spaces. induction s as [|c s IH]; cbn; [reflexivity|]. rewrite IH. destruct (Ascii.eqb c "-") eqn:A.
  - apply Ascii.eqb_eq in A. subst. reflexivity.
  - destruct (ascii_dec c "-") as [->|]; [discriminate|reflexivity].
Qed.

Lemma occurrences_spaced s : occurrences "," (with_spaces s) = occurrences "," s.
Proof.
  unfold with_spaces. induction s as [|c s IH]; [reflexivity|]. unfold occurrences in *. cbn. rewrite IH.
  destruct (ascii_dec c "-") as [->|]; [reflexivity|]. destruct (ascii_dec c ","); reflexivity.
Qed.

Lemma join_concat sep l : join sep l = String.concat sep l.
Proof. induction l as [|x [|y l] IH]; [reflexivity..|]. cbn [join String.concat] in *. now rewrite IH. Qed.

Lemma concat_split x l : occurrences "," x = 0 -> (forall y, In y l -> occurrences "," y = 0) ->
  split_on "," (String.concat ", " (x :: l)) = x :: map (fun y => " " ++ y)%string l.
Proof.
  revert x. induction l as [|y l IH]; intros x O Ol.
  - cbn. apply split_on_none, O.
  - change (String.concat ", " (x :: y :: l)) with (x ++ String "," (" " ++ String.concat ", " (y :: l)))%string.
    rewrite split_on_app by exact O. f_equal.
    change (split_on "," (String " " (String.concat ", " (y :: l))) = map (fun y => (" " ++ y)%string) (y :: l)).
    cbn [split_on]. change (Ascii.eqb " " ",") with false. cbn match. rewrite IH; [reflexivity|apply Ol; now left|intros; apply Ol; now right].
Qed.

Lemma concat_inj a b : a <> [] -> b <> [] -> (forall x, In x a -> occurrences "," x = 0) -> (forall x, In x b -> occurrences "," x = 0) ->
  String.concat ", " a = String.concat ", " b -> a = b.
Proof.
  intros Na Nb Oa Ob E. destruct a as [|x a]; [congruence|]. destruct b as [|y b]; [congruence|].
  apply (f_equal (split_on ",")) in E. rewrite !concat_split in E; auto using in_eq, in_cons.
  injection E as -> E. f_equal. clear - E. revert b E. induction a as [|z a IH]; destruct b as [|w b]; cbn; intros E; try congruence.
  injection E as -> E. f_equal. auto.
Qed.

Lemma smem_false x l : smem x l = false <-> ~ In x l.
Proof. rewrite <- smem_In. destruct (smem x l); split; intros; congruence. Qed.

Lemma filtered_In l w : In w (filtered l) <-> exists s, In s l /\ ~ In s exceptions /\ w = with_spaces s.
Proof.
  unfold filtered. rewrite in_map_iff. split.
  - intros (s & <- & H). apply filter_In in H as [I F]. exists s. rewrite spaced_with. repeat split; auto.
    apply negb_true_iff, smem_false in F. exact F.
  - intros (s & I & N & ->). exists s. rewrite spaced_with. split; [reflexivity|]. apply filter_In. split; [exact I|].
    apply negb_true_iff, smem_false. exact N.
Qed.

(** ** Pages that are read *)

Section So.
Variable api : nat -> string -> wrapper + error.
Variable abort : Z -> error.

(** What the pages make of the map. *)
Fixpoint run_pages (ps : list (list item)) (m : gmap) (seen : list string) : gmap * list string :=
  match ps with
  | [] => (m, seen)
  | p :: ps' => let '(m1, seen1) := synonyms_loop p m seen in run_pages ps' (names_loop p m1 seen1) seen1
  end.

Lemma fetch_ok page site its more b : api page site = inl (mkWrapper its more "" "" b) -> fetchTags api page site = inl (mkWrapper its more "" "" b).
Proof. intros E. unfold fetchTags. now rewrite E. Qed.

Lemma fetch_inv page site w : fetchTags api page site = inl w -> api page site = inl (mkWrapper (items w) (hasMore w) "" "" (backoff w)).
Proof.
  unfold fetchTags. destruct (api page site) as [[its more en em b]|e]; [|discriminate]. cbn.
  destruct en; destruct em; cbn; intros E; try discriminate. injection E as <-. reflexivity.
Qed.

Lemma pages_run site n p ps m seen : fetched api site p n ps -> pages_loop api abort site n p m seen = inl (run_pages ps m seen).
Proof.
  intros F. revert m seen. induction F as [p|p n its b E|p n its b ps E B F IH]; intros m seen; cbn [pages_loop run_pages].
  - reflexivity.
  - rewrite (fetch_ok _ _ _ _ _ E). cbn. destruct (synonyms_loop its m seen). reflexivity.
  - rewrite (fetch_ok _ _ _ _ _ E). cbn. destruct (synonyms_loop its m seen).
    destruct (10 <? b)%Z eqn:L; [apply Z.ltb_lt in L; lia|]. apply IH.
Qed.

Lemma pages_inv site n : forall p m seen r, pages_loop api abort site n p m seen = inl r -> exists ps, fetched api site p n ps.
Proof.
  induction n as [|n IH]; intros p m seen r; cbn [pages_loop].
  - intros _. exists []. constructor.
  - destruct (fetchTags api p site) as [w|e] eqn:E; [|discriminate]. apply fetch_inv in E.
    destruct (synonyms_loop (items w) m seen) as [m1 s1]. destruct (hasMore w) eqn:Hm; cbn [negb].
    + destruct (10 <? backoff w)%Z eqn:L; [discriminate|]. apply Z.ltb_ge in L. intros R. apply IH in R as [ps F].
      exists (items w :: ps). eapply F_more; eauto.
    + intros _. exists [items w]. eapply F_last; eauto.
Qed.

Lemma so_run ps : fetched api "stackoverflow" 1 20 ps -> so_mappings_of api abort = inl (fst (run_pages ps [] [])).
Proof.
  intros F. unfold so_mappings_of, sites. cbn [sites_loop]. change (2000 / 100) with 20.
  rewrite (pages_run _ _ _ _ _ _ F). destruct (run_pages ps [] []). reflexivity.
Qed.

Lemma so_inv m : so_mappings_of api abort = inl m -> exists ps, fetched api "stackoverflow" 1 20 ps.
Proof.
  unfold so_mappings_of, sites. cbn [sites_loop]. change (2000 / 100) with 20.
  destruct (pages_loop api abort "stackoverflow" 20 1 [] []) as [[m' s']|e] eqn:E; [|discriminate]. intros _. eapply pages_inv; eauto.
Qed.
End So.

(** ** C61: the words of the map *)

(** [w] is a word that tag [t] puts into the map. *)
Definition gives (t : item) (w : string) : Prop :=
  (w = with_spaces (iname t) /\ ~ In w exceptions) \/ exists s, In s (isynonyms t) /\ ~ In s exceptions /\ w = with_spaces s.

Lemma gives_says t w : gives t w -> says t w.
Proof. intros [[-> _]|(s & I & _ & ->)]; [left|right]; eauto. Qed.

Section Words.
Variable ps : list (list item).
Hypothesis NC : no_commas ps.

Lemma gives_comma t w : live ps t -> gives t w -> occurrences "," w = 0.
Proof. intros L [[-> _]|(s & I & _ & ->)]; rewrite occurrences_spaced; [exact (proj1 (NC t L))|exact (proj2 (NC t L) _ I)]. Qed.

Section Consistent.
Hypothesis CO : consistent ps.

(** The map holds only entries for these words, and every processed word. *)
Definition sound (m : gmap) : Prop :=
  forall k c, In (k, c) m -> exists ws, ws <> [] /\ k = String.concat ", " ws /\
    (forall w, In w ws -> exists t, live ps t /\ iname t = c /\ gives t w).

Lemma sound_comma ws c : (forall w, In w ws -> exists t, live ps t /\ iname t = c /\ gives t w) -> forall w, In w ws -> occurrences "," w = 0.
Proof. intros H w I. destruct (H w I) as (t & L & _ & G). exact (gives_comma t w L G). Qed.

Lemma gset_keeps m ws t k c : sound m -> ws <> [] -> live ps t -> (forall w, In w ws -> gives t w) ->
  In (k, c) m -> In (k, c) (gset (String.concat ", " ws) (iname t) m).
Proof.
  intros S Ne L G I. apply gset_In. destruct (string_dec k (String.concat ", " ws)) as [->|N]; [left|right; auto].
  split; [reflexivity|]. destruct (S _ _ I) as (ws' & Ne' & E & G').
  assert (X : ws = ws').
  { apply concat_inj; auto; [|apply (sound_comma _ _ G')]. apply (sound_comma ws (iname t)). intros w J. exists t. auto. }
  subst. destruct ws' as [|w ws']; [congruence|]. destruct (G' w (or_introl eq_refl)) as (t' & L' & <- & g').
  apply (CO t' t w L' L); apply gives_says; auto. apply G. now left.
Qed.

Lemma gset_sound m ws t : sound m -> ws <> [] -> live ps t -> (forall w, In w ws -> gives t w) -> sound (gset (String.concat ", " ws) (iname t) m).
Proof.
  intros S Ne L G k c I. apply gset_In in I as [[-> ->]|[_ I]]; [|apply S; exact I]. exists ws. repeat split; auto. intros w J. exists t. auto.
Qed.

Lemma listed_keeps m ws t w c : sound m -> ws <> [] -> live ps t -> (forall w, In w ws -> gives t w) ->
  listed m w c -> listed (gset (String.concat ", " ws) (iname t) m) w c.
Proof. intros S Ne L G (l & O & I & J). exists l. repeat split; auto. apply gset_keeps; auto. Qed.

Definition covered (m : gmap) (seen : list string) : Prop := forall w, In w seen -> exists c, listed m w c.

Lemma filtered_gives t w : In w (filtered (isynonyms t)) -> gives t w.
Proof. intros I. apply filtered_In in I as (s & I & N & ->). right. eauto. Qed.

Lemma synonyms_inv its : (forall t, In t its -> moderator t = false -> live ps t) -> forall m seen, sound m -> covered m seen ->
  let r := synonyms_loop its m seen in
  sound (fst r) /\ covered (fst r) (snd r) /\ (forall w c, listed m w c -> listed (fst r) w c) /\
  (forall t w, In t its -> moderator t = false -> In w (filtered (isynonyms t)) -> listed (fst r) w (iname t)).
Proof.
  induction its as [|t its IH]; intros L m seen S C; cbn [synonyms_loop].
  - cbn. repeat split; auto. intros ? ? [].
  - assert (L' : forall t', In t' its -> moderator t' = false -> live ps t') by (intros; apply L; [now right|assumption]).
    assert (Skip : (moderator t = true \/ filtered (isynonyms t) = []) -> let r := synonyms_loop its m seen in
      sound (fst r) /\ covered (fst r) (snd r) /\ (forall w c, listed m w c -> listed (fst r) w c) /\
      (forall t' w, In t' (t :: its) -> moderator t' = false -> In w (filtered (isynonyms t')) -> listed (fst r) w (iname t'))).
    { intros Sk. destruct (IH L' m seen S C) as (A & B & K & D). repeat split; auto. intros t' w [<-|I] Mo F; [|eauto].
      destruct Sk as [Sk|Sk]; [congruence|]. rewrite Sk in F. destruct F. }
    destruct (moderator t) eqn:Mo; [apply Skip; now left|].
    destruct (Nat.eqb (length (isynonyms t)) 0) eqn:E1.
    { apply Skip. right. apply Nat.eqb_eq in E1. destruct (isynonyms t); [reflexivity|discriminate]. }
    destruct (Nat.eqb (length (filtered (isynonyms t))) 0) eqn:E2.
    { apply Skip. right. apply Nat.eqb_eq in E2. destruct (filtered (isynonyms t)); [reflexivity|discriminate]. }
    clear Skip. set (f := filtered (isynonyms t)) in *. assert (Ne : f <> []) by (intros X; rewrite X in E2; discriminate).
    assert (Lt : live ps t) by (apply L; [now left|exact Mo]).
    assert (G : forall w, In w f -> gives t w) by (intros; apply filtered_gives; assumption).
    rewrite join_concat.
    assert (New : forall w, In w f -> listed (gset (String.concat ", " f) (iname t) m) w (iname t)).
    { intros w I. exists f. repeat split; auto; [intros x J; exact (gives_comma t x Lt (G _ J))|]. apply gset_In. left. auto. }
    destruct (IH L' (gset (String.concat ", " f) (iname t) m) (f ++ seen)) as (A & B & K & D).
    + apply gset_sound; auto.
    + intros w I. apply in_app_or in I as [I|I]; [eauto|]. destruct (C _ I) as (c & H). exists c. apply listed_keeps; auto.
    + repeat split; auto.
      * intros w c H. apply K, listed_keeps; auto.
      * intros t' w [<-|I] Mo' F; [|eauto]. apply K, New. exact F.
Qed.

Lemma names_inv its : (forall t, In t its -> moderator t = false -> live ps t) -> forall m seen, sound m -> covered m seen ->
  let r := names_loop its m seen in
  sound r /\ covered r seen /\ (forall w c, listed m w c -> listed r w c) /\
  (forall t, In t its -> moderator t = false -> ~ In (with_spaces (iname t)) exceptions -> listed r (with_spaces (iname t)) (iname t)).
Proof.
  induction its as [|t its IH]; intros L m seen S C; cbn [names_loop].
  - cbn. repeat split; auto. intros ? [].
  - assert (L' : forall t', In t' its -> moderator t' = false -> live ps t') by (intros; apply L; [now right|assumption]).
    destruct (moderator t) eqn:Mo.
    { destruct (IH L' m seen S C) as (A & B & K & D). repeat split; auto. intros t' [<-|I]; [congruence|auto]. }
    assert (Lt : live ps t) by (apply L; [now left|exact Mo]). rewrite spaced_with.
    destruct (smem (with_spaces (iname t)) ignore) eqn:E1.
    { apply smem_In in E1. destruct (IH L' m seen S C) as (A & B & K & D). repeat split; auto. intros t' [<-|I]; [contradiction|auto]. }
    apply smem_false in E1.
    destruct (smem (with_spaces (iname t)) seen) eqn:E2.
    { apply smem_In in E2. destruct (IH L' m seen S C) as (A & B & K & D). repeat split; auto. intros t' [<-|I] Mo2 X; [|auto].
      apply K. destruct (C _ E2) as (c & H). assert (Ec : c = iname t); [|rewrite Ec in H; exact H].
      destruct H as (ws & O & I & J). destruct (S _ _ J) as (ws' & Ne & Ec & G).
      assert (Y : ws = ws') by (apply concat_inj; auto; [intros ->; destruct I|apply (sound_comma _ _ G)]). subst.
      destruct (G _ I) as (t' & L'' & <- & g). apply (CO t' t _ L'' Lt (gives_says _ _ g)). now left. }
    assert (G : forall w, In w [with_spaces (iname t)] -> gives t w) by (intros w [<-|[]]; left; auto).
    change (gset (with_spaces (iname t)) (iname t) m) with (gset (String.concat ", " [with_spaces (iname t)]) (iname t) m).
    destruct (IH L' (gset (String.concat ", " [with_spaces (iname t)]) (iname t) m) seen) as (A & B & K & D).
    + apply gset_sound; auto. discriminate.
    + intros w I. destruct (C _ I) as (c & H). exists c. apply listed_keeps; auto. discriminate.
    + repeat split; auto.
      * intros w c H. apply K, listed_keeps; auto. discriminate.
      * intros t' [<-|I] Mo' X; [|auto]. apply K. exists [with_spaces (iname t)]. repeat split.
        -- intros x [<-|[]]. apply (gives_comma t); auto. apply G. now left.
        -- now left.
        -- apply gset_In. left. auto.
Qed.

Lemma run_inv qs : (forall p, In p qs -> In p ps) -> forall m seen, sound m -> covered m seen ->
  sound (fst (run_pages qs m seen)) /\ (forall w c, listed m w c -> listed (fst (run_pages qs m seen)) w c) /\
  (forall p t w, In p qs -> In t p -> moderator t = false -> gives t w -> listed (fst (run_pages qs m seen)) w (iname t)).
Proof.
  induction qs as [|p qs IH]; intros Sub m seen S C; cbn [run_pages].
  - cbn. repeat split; auto. intros ? ? ? [].
  - assert (L : forall t, In t p -> moderator t = false -> live ps t) by (intros t I Mo; exists p; repeat split; auto; apply Sub; now left).
    destruct (synonyms_inv p L m seen S C) as (A & B & K & D). destruct (synonyms_loop p m seen) as [m1 s1]. cbn [fst snd] in *.
    destruct (names_inv p L m1 s1 A B) as (A' & B' & K' & D').
    destruct (IH (fun q I => Sub q (or_intror I)) _ s1 A' B') as (A'' & K'' & D''). repeat split; auto.
    intros q t w [<-|I] It Mo G; [|eauto]. apply K''. destruct G as [[-> N]|G].
    + apply D'; auto.
    + apply K', D; auto. apply filtered_In. exact G.
Qed.
End Consistent.
End Words.

Lemma C61_lemma api abort :
  (forall m, so_mappings_of api abort = inl m -> exists ps, fetched api "stackoverflow" 1 20 ps) /\
  (forall ps, fetched api "stackoverflow" 1 20 ps -> exists m, so_mappings_of api abort = inl m /\
    (no_commas ps -> consistent ps -> forall w c,
      listed m w c <-> exists t, live ps t /\ iname t = c /\
        ((w = with_spaces (iname t) /\ ~ In w exceptions) \/ exists s, In s (isynonyms t) /\ ~ In s exceptions /\ w = with_spaces s))).
Proof.
  split; [apply so_inv|]. intros ps F. exists (fst (run_pages ps [] [])). split; [apply so_run, F|]. intros NC CO w c.
  destruct (run_inv ps NC CO ps (fun p I => I) [] []) as (S & _ & D).
  { intros ? ? []. } { intros ? []. }
  split.
  - intros (ws & O & I & J). destruct (S _ _ J) as (ws' & Ne & E & G).
    assert (X : ws = ws') by (apply concat_inj; auto; [intros ->; destruct I|apply (sound_comma ps NC _ _ G)]). subst. exact (G _ I).
  - intros (t & (p & Ip & It & Mo) & <- & G). exact (D p t w Ip It Mo G).
Qed.

(** ** C62, C63: upper bounds *)

Section Upper.
Variable ps : list (list item).
Hypothesis NC : no_commas ps.

(** Where an entry comes from. *)
Definition from_syn (k c : string) : Prop := exists t, live ps t /\ c = iname t /\ filtered (isynonyms t) <> [] /\ k = String.concat ", " (filtered (isynonyms t)).
Definition from_name (k c : string) : Prop := exists t, live ps t /\ c = iname t /\ k = with_spaces (iname t) /\ ~ In k exceptions.

Lemma synonyms_upper its : (forall t, In t its -> moderator t = false -> live ps t) -> forall m seen,
  let r := synonyms_loop its m seen in
  (forall k c, In (k, c) (fst r) -> In (k, c) m \/ (from_syn k c /\ exists t, In t its /\ moderator t = false /\ c = iname t /\ filtered (isynonyms t) <> [] /\ k = String.concat ", " (filtered (isynonyms t)) /\
     forall w, In w (filtered (isynonyms t)) -> In w (snd r))) /\
  (forall w, In w (snd r) -> In w seen \/ exists t, In t its /\ moderator t = false /\ In w (filtered (isynonyms t))) /\
  (forall w, In w seen -> In w (snd r)).
Proof.
  induction its as [|t its IH]; intros L m seen; cbn [synonyms_loop].
  - cbn. repeat split; auto.
  - assert (L' : forall t', In t' its -> moderator t' = false -> live ps t') by (intros; apply L; [now right|assumption]).
    assert (Skip : let r := synonyms_loop its m seen in
      (forall k c, In (k, c) (fst r) -> In (k, c) m \/ (from_syn k c /\ exists t', In t' (t :: its) /\ moderator t' = false /\ c = iname t' /\ filtered (isynonyms t') <> [] /\ k = String.concat ", " (filtered (isynonyms t')) /\
         forall w, In w (filtered (isynonyms t')) -> In w (snd r))) /\
      (forall w, In w (snd r) -> In w seen \/ exists t', In t' (t :: its) /\ moderator t' = false /\ In w (filtered (isynonyms t'))) /\
      (forall w, In w seen -> In w (snd r))).
    { destruct (IH L' m seen) as (A & B & C). repeat split; auto.
      - intros k c I. destruct (A _ _ I) as [|(F & t' & I' & X)]; [auto|right]. split; [exact F|]. exists t'. split; [now right|exact X].
      - intros w I. destruct (B _ I) as [|(t' & I' & X)]; [auto|right]. exists t'. split; [now right|exact X]. }
    destruct (moderator t) eqn:Mo; [apply Skip|]. destruct (Nat.eqb (length (isynonyms t)) 0) eqn:E1; [apply Skip|].
    destruct (Nat.eqb (length (filtered (isynonyms t))) 0) eqn:E2; [apply Skip|]. clear Skip.
    destruct (IH L' (gset (join ", " (filtered (isynonyms t))) (iname t) m) (filtered (isynonyms t) ++ seen)) as (A & B & C).
    repeat split.
    + intros k c I. destruct (A _ _ I) as [J|(F & t' & I' & X)].
      * apply gset_In in J as [[-> ->]|[_ J]]; [right|auto]. rewrite join_concat. split.
        -- exists t. repeat split; [apply L; [now left|exact Mo]|]. intros X. rewrite X in E2. discriminate.
        -- exists t. repeat split; auto using in_eq; [intros X; rewrite X in E2; discriminate|]. intros w J. apply C, in_or_app. now left.
      * right. split; [exact F|]. exists t'. split; [now right|exact X].
    + intros w I. destruct (B _ I) as [J|(t' & I' & X)].
      * apply in_app_or in J as [J|J]; [right|auto]. exists t. auto using in_eq.
      * right. exists t'. split; [now right|exact X].
    + intros w I. apply C, in_or_app. now right.
Qed.

Lemma names_upper its : (forall t, In t its -> moderator t = false -> live ps t) -> forall m seen k c, In (k, c) (names_loop its m seen) ->
  In (k, c) m \/ (from_name k c /\ ~ In k seen /\ exists t, In t its /\ moderator t = false /\ k = with_spaces (iname t)).
Proof.
  induction its as [|t its IH]; intros L m seen k c; cbn [names_loop]; [auto|].
  assert (L' : forall t', In t' its -> moderator t' = false -> live ps t') by (intros; apply L; [now right|assumption]).
  assert (Skip : In (k, c) (names_loop its m seen) -> In (k, c) m \/ (from_name k c /\ ~ In k seen /\ exists t', In t' (t :: its) /\ moderator t' = false /\ k = with_spaces (iname t'))).
  { intros I. destruct (IH L' _ _ _ _ I) as [|(F & N & t' & I' & X)]; [auto|right]. split; [exact F|split; [exact N|]]. exists t'. split; [now right|exact X]. }
  destruct (moderator t) eqn:Mo; [exact Skip|]. rewrite spaced_with.
  destruct (smem (with_spaces (iname t)) ignore) eqn:E1; [exact Skip|]. destruct (smem (with_spaces (iname t)) seen) eqn:E2; [exact Skip|]. clear Skip.
  apply smem_false in E1. apply smem_false in E2. intros I. destruct (IH L' _ _ _ _ I) as [J|(F & N & t' & I' & X)].
  - apply gset_In in J as [[-> ->]|[_ J]]; [right|auto]. split; [|split; [exact E2|exists t; auto using in_eq]].
    exists t. repeat split; auto. apply L; [now left|exact Mo].
  - right. split; [exact F|split; [exact N|]]. exists t'. split; [now right|exact X].
Qed.

(** Every entry of the final map is one or the other. *)
Lemma run_upper qs : (forall p, In p qs -> In p ps) -> forall m seen, (forall k c, In (k, c) m -> from_syn k c \/ from_name k c) ->
  forall k c, In (k, c) (fst (run_pages qs m seen)) -> from_syn k c \/ from_name k c.
Proof.
  induction qs as [|p qs IH]; intros Sub m seen M; cbn [run_pages]; [exact M|].
  assert (L : forall t, In t p -> moderator t = false -> live ps t) by (intros t I Mo; exists p; repeat split; auto; apply Sub; now left).
  destruct (synonyms_upper p L m seen) as (A & _). destruct (synonyms_loop p m seen) as [m1 s1]. cbn [fst snd] in *.
  apply (IH (fun q I => Sub q (or_intror I))). intros k c I. destruct (names_upper p L _ _ _ _ I) as [J|(F & _)]; [|auto].
  destruct (A _ _ J) as [|(F & _)]; auto.
Qed.

Lemma from_word k c ws w : (forall x, In x ws -> occurrences "," x = 0) -> In w ws -> k = String.concat ", " ws -> from_syn k c \/ from_name k c ->
  exists t, live ps t /\ c = iname t /\ ((w = with_spaces (iname t) /\ ~ In w exceptions /\ k = w) \/ (In w (filtered (isynonyms t)) /\ k = String.concat ", " (filtered (isynonyms t)))).
Proof.
  intros O I -> [(t & L & -> & Ne & E)|(t & L & -> & E & N)]; exists t; repeat split; auto.
  - right. split; [|exact E]. assert (X : ws = filtered (isynonyms t)).
    { apply concat_inj; auto; [intros ->; destruct I|]. intros x J. apply filtered_In in J as (s & J & _ & ->). rewrite occurrences_spaced. apply (proj2 (NC t L)). exact J. }
    rewrite <- X. exact I.
  - left. assert (X : ws = [with_spaces (iname t)]).
    { apply concat_inj; auto; [intros ->; destruct I|discriminate|]. intros x [<-|[]]. rewrite occurrences_spaced. exact (proj1 (NC t L)). }
    subst. destruct I as [<-|[]]. auto.
Qed.
End Upper.

Lemma C62_lemma api abort ps m : fetched api "stackoverflow" 1 20 ps -> no_commas ps -> so_mappings_of api abort = inl m ->
  forall e c, In e exceptions -> e <> "drop-down"%string -> ~ listed m (with_spaces e) c.
Proof.
  intros F NC E e c I Ne (ws & O & J & K). rewrite (so_run _ _ _ F) in E. injection E as <-.
  assert (U := run_upper ps ps (fun p I => I) [] [] (fun k c (H : In (k, c) []) => match H with end) _ _ K).
  assert (X : with_spaces e = e /\ forall s, with_spaces s = e -> s = e).
  { assert (Y : occurrences " " e = 0 /\ with_spaces e = e) by (destruct I as [<-|[<-|[<-|[<-|[]]]]]; [congruence|split; reflexivity..]).
    destruct Y as [Y Z]. split; [exact Z|]. clear - Y. revert e Y. unfold with_spaces, occurrences. induction e as [|a e IH]; intros Y s H.
    - destruct s; [reflexivity|]. cbn in H. destruct (ascii_dec a "-"); discriminate.
    - destruct s as [|b s]; [discriminate|]. cbn in *. destruct (ascii_dec a " ") as [|Na]; [discriminate|].
      injection H as H1 H2. f_equal; [|apply IH; auto]. destruct (ascii_dec b "-"); congruence. }
  destruct X as [X1 X2].
  destruct (from_word ps NC _ c ws _ O J eq_refl U) as (t & L & _ & [(_ & N & _)|(N & _)]).
  - apply N. now rewrite X1.
  - apply filtered_In in N as (s & _ & N & Es). apply N. rewrite (X2 s); [exact I|]. now rewrite <- Es, X1.
Qed.

(** C63 *)
Section Order.
Variable ps : list (list item).
Hypothesis NC : no_commas ps.
Hypothesis SC : synonyms_consistent ps.
Hypothesis ORD : forall a p b, ps = a ++ p :: b -> forall t1 t2 s, In t1 p -> moderator t1 = false -> live b t2 -> In s (isynonyms t2) ->
  with_spaces s <> with_spaces (iname t1).

Lemma run_order qs : forall pre m seen, ps = pre ++ qs ->
  (forall k c, In (k, c) m -> (exists t, live ps t /\ c = iname t /\ filtered (isynonyms t) <> [] /\ k = String.concat ", " (filtered (isynonyms t)) /\ forall w, In w (filtered (isynonyms t)) -> In w seen) \/
     (from_name ps k c /\ ~ In k seen /\ exists t, live pre t /\ k = with_spaces (iname t))) ->
  forall k c, In (k, c) (fst (run_pages qs m seen)) ->
    (exists t, live ps t /\ c = iname t /\ filtered (isynonyms t) <> [] /\ k = String.concat ", " (filtered (isynonyms t)) /\ forall w, In w (filtered (isynonyms t)) -> In w (snd (run_pages qs m seen))) \/
    (from_name ps k c /\ ~ In k (snd (run_pages qs m seen))).
Proof.
  induction qs as [|p qs IH]; intros pre m seen E M; cbn [run_pages].
  - cbn. intros k c I. destruct (M _ _ I) as [|(F & N & _)]; auto.
  - assert (Ip : In p ps) by (rewrite E; apply in_or_app; right; now left).
    assert (L : forall t, In t p -> moderator t = false -> live ps t) by (intros t I Mo; exists p; auto).
    destruct (synonyms_upper ps p L m seen) as (A & B & C). destruct (synonyms_loop p m seen) as [m1 s1]. cbn [fst snd] in *.
    apply (IH (pre ++ [p])); [rewrite <- app_assoc; exact E|]. intros k c I.
    destruct (names_upper ps p L _ _ _ _ I) as [J|(F & N & t & It & Mo & Et)].
    + destruct (A _ _ J) as [K|(F & t & It & Mo & -> & Ne & Ek & Sw)].
      * destruct (M _ _ K) as [(t & Lt & Ec & Ne & Ek & Sw)|(F & N & t & (q & Iq & It & Mo) & Ek)].
        -- left. exists t. repeat split; auto.
        -- right. split; [exact F|]. split; [|exists t; split; [exists q; repeat split; auto; apply in_or_app; now left|exact Ek]].
           intros I1. destruct (B _ I1) as [|(t' & It' & Mo' & Iw)]; [contradiction|].
           apply filtered_In in Iw as (s & Is & _ & Es).
           apply in_split in Iq as (a & b & ->). rewrite <- app_assoc in E. cbn in E.
           apply (ORD a q (b ++ p :: qs) E t t' s It Mo); [|exact Is|congruence].
           exists p. repeat split; auto. apply in_or_app. right. now left.
      * left. exists t. repeat split; auto.
    + right. split; [exact F|]. split; [exact N|]. exists t. split; [|exact Et]. exists p. repeat split; auto. apply in_or_app. right. now left.
Qed.
End Order.

Lemma C63_lemma api abort ps m : fetched api "stackoverflow" 1 20 ps -> no_commas ps -> synonyms_consistent ps ->
  (forall a p b, ps = a ++ p :: b -> forall t1 t2 s, In t1 p -> moderator t1 = false -> live b t2 -> In s (isynonyms t2) ->
     with_spaces s <> with_spaces (iname t1)) ->
  so_mappings_of api abort = inl m -> forall w c1 c2, listed m w c1 -> listed m w c2 -> c1 = c2.
Proof.
  intros F NC [SC1 SC2] ORD E w c1 c2 (ws1 & O1 & I1 & J1) (ws2 & O2 & I2 & J2). rewrite (so_run _ _ _ F) in E. injection E as <-.
  assert (R := run_order ps ORD ps [] [] [] eq_refl (fun k c (H : In (k, c) []) => match H with end)).
  set (sn := snd (run_pages ps [] [])) in *.
  assert (V : forall ws c, (forall x, In x ws -> occurrences "," x = 0) -> In w ws -> In (String.concat ", " ws, c) (fst (run_pages ps [] [])) ->
     exists t, live ps t /\ c = iname t /\ ((w = with_spaces (iname t) /\ ~ In w sn) \/ (In w (filtered (isynonyms t)) /\ In w sn))).
  { intros ws c O I J. assert (Nw : ws <> []) by (intros ->; destruct I). destruct (R _ _ J) as [(t & L & -> & Ne & Ek & Sw)|((t & L & -> & Ek & _) & N)]; exists t; repeat split; auto.
    - right. assert (X : ws = filtered (isynonyms t)).
      { apply concat_inj; auto. intros x Ix. apply filtered_In in Ix as (s & Is & _ & ->). rewrite occurrences_spaced. apply (proj2 (NC t L)). exact Is. }
      subst. auto.
    - left. assert (X : ws = [with_spaces (iname t)]).
      { apply concat_inj; auto; [discriminate|]. intros x [<-|[]]. rewrite occurrences_spaced. exact (proj1 (NC t L)). }
      subst. destruct I as [<-|[]]. split; [reflexivity|exact N]. }
  destruct (V _ _ O1 I1 J1) as (t1 & L1 & -> & [[W1 N1]|[W1 N1]]); destruct (V _ _ O2 I2 J2) as (t2 & L2 & -> & [[W2 N2]|[W2 N2]]); try contradiction.
  - apply SC2; auto. congruence.
  - apply filtered_In in W1 as (s1 & Is1 & _ & E1). apply filtered_In in W2 as (s2 & Is2 & _ & E2). apply (SC1 t1 t2 s1 s2); auto. congruence.
Qed.
