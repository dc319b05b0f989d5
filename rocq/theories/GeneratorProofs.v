(** * GeneratorProofs: lemmas behind C60 - C63. *)

From Coq Require Import ZArith Permutation.
From Verif Require Import Base Utf8 Unicode Words Ascii ContractionsGen Generators GenSpec StreamProofs Utf8Proofs WordsProofs WordSplitProofs TokenProofs.
Local Open Scope N_scope.

(** ** Runes with their bytes *)

Lemma chunks_enc r s : valid_rune r = true -> chunks (enc_raw r ++ s) = (r, enc_raw r) :: chunks s.
Proof.
  intros V. ranges. unfold enc_raw.
  destruct (r <? 128) eqn:E1; [|destruct (r <? 2048) eqn:E2; [|destruct (r <? 65536) eqn:E3]]; ranges.
  - cbn [append chunks]. rewrite byte_chr by lia. t_ltb true. reflexivity.
  - cbn [append chunks]. rewrite !byte_chr by lia. t_ltb false. t_rng true.
    unfold cont. t_rng true. do 2 f_equal. unfold rune2. lia.
  - cbn [append chunks]. rewrite !byte_chr by lia. t_ltb false. t_rng false. t_rng true.
    replace (in_range (lo3 (224 + r / 4096)) (hi3 (224 + r / 4096)) (128 + (r / 64) mod 64)) with true.
    2:{ symmetry. apply in_range_spec. unfold lo3, hi3.
        destruct (224 + r / 4096 =? 224) eqn:A; destruct (224 + r / 4096 =? 237) eqn:B; lia. }
    unfold cont. t_rng true. cbn [andb]. do 2 f_equal. unfold rune3. lia.
  - cbn [append chunks]. rewrite !byte_chr by lia. t_ltb false. do 2 t_rng false. t_rng true.
    replace (in_range (lo4 (240 + r / 262144)) (hi4 (240 + r / 262144)) (128 + (r / 4096) mod 64)) with true.
    2:{ symmetry. apply in_range_spec. unfold lo4, hi4.
        destruct (240 + r / 262144 =? 240) eqn:A; destruct (240 + r / 262144 =? 244) eqn:B; lia. }
    unfold cont. do 2 t_rng true. cbn [andb]. do 2 f_equal. unfold rune4. lia.
Qed.

(** Each chunk is an encoded rune, or an invalid byte. *)
Lemma chunk_view s r b : In (r, b) (chunks s) -> (valid_rune r = true /\ b = encode_rune r) \/ r = RuneError.
Proof.
  remember (String.length s) as n eqn:En. revert s En. induction n as [n IH] using (well_founded_induction Wf_nat.lt_wf). intros s En H.
  destruct s as [|c s]; [destruct H|].
  assert (R : forall s' r' b', chunks (String c s) = (r', b') :: chunks s' -> (String.length s' < n)%nat ->
     (valid_rune r' = true /\ b' = encode_rune r') \/ r' = RuneError -> (valid_rune r = true /\ b = encode_rune r) \/ r = RuneError).
  { intros s' r' b' E L D. rewrite E in H. destruct H as [H|H]; [injection H as -> ->; exact D|]. exact (IH _ L s' eq_refl H). }
  cbn [String.length] in En.
  destruct (byte_of c <? 128) eqn:E1.
  { ranges. destruct (enc1 c E1) as [A B]. apply (R s (byte_of c) (String c "")); [|lia|left; now rewrite encode_rune_valid, A].
    cbn [chunks]. t_ltb true. reflexivity. }
  assert (Bad : chunks (String c s) = (RuneError, String c "") :: chunks s -> (valid_rune r = true /\ b = encode_rune r) \/ r = RuneError).
  { intros E. apply (R s RuneError (String c "")); [exact E|lia|right; reflexivity]. }
  destruct (in_range 194 223 (byte_of c)) eqn:E2.
  { destruct s as [|c2 s2]; [apply Bad; cbn [chunks]; now rewrite E1, E2|].
    destruct (cont (byte_of c2)) eqn:C2; [|apply Bad; cbn [chunks]; now rewrite E1, E2, C2].
    destruct (enc2 c c2 E2 C2) as [A B]. eapply (R s2); [cbn [chunks]; rewrite E1, E2, C2; reflexivity|cbn in En; lia|left; now rewrite encode_rune_valid, A]. }
  destruct (in_range 224 239 (byte_of c)) eqn:E3.
  { destruct s as [|c2 [|c3 s3]]; try (apply Bad; cbn [chunks]; now rewrite E1, E2, E3).
    destruct (in_range (lo3 (byte_of c)) (hi3 (byte_of c)) (byte_of c2)) eqn:C2; [|apply Bad; cbn [chunks]; now rewrite E1, E2, E3, C2].
    destruct (cont (byte_of c3)) eqn:C3; [|apply Bad; cbn [chunks]; now rewrite E1, E2, E3, C2, C3].
    destruct (enc3 c c2 c3 E3 C2 C3) as [A B]. eapply (R s3); [cbn [chunks]; rewrite E1, E2, E3, C2, C3; reflexivity|cbn in En; lia|left; now rewrite encode_rune_valid, A]. }
  destruct (in_range 240 244 (byte_of c)) eqn:E4; [|apply Bad; cbn [chunks]; now rewrite E1, E2, E3, E4].
  destruct s as [|c2 [|c3 [|c4 s4]]]; try (apply Bad; cbn [chunks]; now rewrite E1, E2, E3, E4).
  destruct (in_range (lo4 (byte_of c)) (hi4 (byte_of c)) (byte_of c2)) eqn:C2; [|apply Bad; cbn [chunks]; now rewrite E1, E2, E3, E4, C2].
  destruct (cont (byte_of c3)) eqn:C3; [|apply Bad; cbn [chunks]; now rewrite E1, E2, E3, E4, C2, C3].
  destruct (cont (byte_of c4)) eqn:C4; [|apply Bad; cbn [chunks]; now rewrite E1, E2, E3, E4, C2, C3, C4].
  destruct (enc4 c c2 c3 c4 E4 C2 C3 C4) as [A B]. eapply (R s4); [cbn [chunks]; rewrite E1, E2, E3, E4, C2, C3, C4; reflexivity|cbn in En; lia|left; now rewrite encode_rune_valid, A].
Qed.

(** The text of [u] does not begin with a continuation byte. *)
Definition fresh_start (u : string) : Prop := match u with EmptyString => True | String c _ => cont (byte_of c) = false end.

Lemma enc_raw_fresh r x : valid_rune r = true -> fresh_start (enc_raw r ++ x).
Proof.
  intros V. ranges. unfold enc_raw.
  destruct (r <? 128) eqn:E1; [|destruct (r <? 2048) eqn:E2; [|destruct (r <? 65536) eqn:E3]]; ranges; cbn [append fresh_start];
    rewrite byte_chr by lia; unfold cont; apply in_range_false; lia.
Qed.

Lemma lo3_ge b : 128 <= lo3 b. Proof. unfold lo3. destruct (b =? 224); lia. Qed.
Lemma hi3_le b : hi3 b <= 191. Proof. unfold hi3. destruct (b =? 237); lia. Qed.
Lemma lo4_ge b : 128 <= lo4 b. Proof. unfold lo4. destruct (b =? 240); lia. Qed.
Lemma hi4_le b : hi4 b <= 191. Proof. unfold hi4. destruct (b =? 244); lia. Qed.

Lemma chunks_app t u : fresh_start u -> chunks (t ++ u) = chunks t ++ chunks u.
Proof.
  intros F. destruct (string_dec u "") as [->|Ne]; [cbn [chunks]; now rewrite sapp_nil_r, app_nil_r|].
  remember (String.length t) as n eqn:En. revert t En. induction n as [n IH] using (well_founded_induction Wf_nat.lt_wf). intros t En.
  destruct t as [|c t]; [reflexivity|]. cbn [String.length] in En.
  assert (IH' : forall t', (String.length t' < n)%nat -> chunks (t' ++ u) = chunks t' ++ chunks u) by (intros; eapply IH; eauto). clear IH.
  assert (Bad : forall x y, chunks (t ++ u) = x -> chunks t = y -> x = y ++ chunks u) by (intros x y <- <-; apply IH'; lia).
  cbn [append chunks]. destruct (byte_of c <? 128) eqn:E1; [cbn [app]; now rewrite IH' by lia|].
  destruct (in_range 194 223 (byte_of c)) eqn:E2.
  { destruct t as [|c2 s2]; cbn [append].
    - destruct u as [|c2 s2]; [reflexivity|]. cbn in F. now rewrite F.
    - destruct (cont (byte_of c2)); cbn [app]; f_equal; [apply IH'; cbn in En; lia|apply (IH' (String c2 s2)); lia]. }
  destruct (in_range 224 239 (byte_of c)) eqn:E3.
  { destruct t as [|c2 [|c3 s3]]; cbn [append].
    - destruct u as [|c2 [|c3 s3]]; [reflexivity|reflexivity|]. cbn in F.
      replace (in_range (lo3 (byte_of c)) (hi3 (byte_of c)) (byte_of c2)) with false; [reflexivity|].
      symmetry. pose proof (lo3_ge (byte_of c)). pose proof (hi3_le (byte_of c)). ranges. apply in_range_false. lia.
    - destruct u as [|c3 s3]; [congruence|]. cbn in F. rewrite F, andb_false_r. cbn [app]. f_equal. apply (IH' (String c2 EmptyString)). lia.
    - destruct (in_range (lo3 (byte_of c)) (hi3 (byte_of c)) (byte_of c2) && cont (byte_of c3))%bool; cbn [app]; f_equal;
        [apply IH'; cbn in En; lia|apply (IH' (String c2 (String c3 s3))); lia]. }
  destruct (in_range 240 244 (byte_of c)) eqn:E4.
  2:{ cbn [app]. f_equal. apply (IH' t). lia. }
  destruct t as [|c2 [|c3 [|c4 s4]]]; cbn [append].
  - destruct u as [|c2 [|c3 [|c4 s4]]]; [reflexivity|reflexivity|reflexivity|]. cbn in F.
    replace (in_range (lo4 (byte_of c)) (hi4 (byte_of c)) (byte_of c2)) with false; [reflexivity|].
    symmetry. pose proof (lo4_ge (byte_of c)). pose proof (hi4_le (byte_of c)). ranges. apply in_range_false. lia.
  - destruct u as [|c3 [|c4 s4]]; [congruence| |].
    + cbn [app]. f_equal. apply (IH' (String c2 EmptyString)). lia.
    + cbn in F. rewrite F, andb_false_r. cbn [app andb]. f_equal. apply (IH' (String c2 EmptyString)). lia.
  - destruct u as [|c4 s4]; [congruence|]. cbn in F. rewrite F, andb_false_r. cbn [app]. f_equal. apply (IH' (String c2 (String c3 EmptyString))). lia.
  - destruct (in_range (lo4 (byte_of c)) (hi4 (byte_of c)) (byte_of c2) && cont (byte_of c3) && cont (byte_of c4))%bool; cbn [app]; f_equal;
      [apply IH'; cbn in En; lia|apply (IH' (String c2 (String c3 (String c4 s4)))); lia].
Qed.

Lemma encode_fresh l x : fresh_start x -> fresh_start (encode l ++ x).
Proof.
  destruct l as [|r l]; cbn [encode]; [auto|]. intros _. rewrite sapp_assoc, encode_rune_fix. apply enc_raw_fresh, fix_rune_valid.
Qed.

Lemma chunks_encode_app l x : Forall (fun r => valid_rune r = true) l -> chunks (encode l ++ x) = map (fun r => (r, encode_rune r)) l ++ chunks x.
Proof.
  induction 1 as [|r l V F IH]; cbn [encode map app append]; [reflexivity|].
  rewrite sapp_assoc, encode_rune_valid, chunks_enc by exact V. now rewrite IH.
Qed.

(** ** TrimSpace *)

Lemma drop_while_all {A} (p : A -> bool) l x : forallb p l = true -> drop_while p (l ++ x) = drop_while p x.
Proof. induction l as [|a l IH]; cbn; [reflexivity|]. intros H. apply andb_true_iff in H as [H1 H2]. rewrite H1. auto. Qed.

Lemma drop_while_split {A} (p : A -> bool) l : exists a, l = a ++ drop_while p l /\ forallb p a = true /\
  (forall x r, drop_while p l = x :: r -> p x = false).
Proof.
  induction l as [|a l (b & E & F & G)]; cbn.
  - exists []. repeat split. discriminate.
  - destruct (p a) eqn:P.
    + exists (a :: b). cbn. rewrite P, F, <- E. repeat split. exact G.
    + exists []. repeat split. intros x r [= <- <-]. exact P.
Qed.

Section Trim.
Variable U : unicode.
Hypothesis ErrSp : uIsSpace U 65533 = false.
Let sp := fun rb : N * string => uIsSpace U (fst rb).

Lemma blank_chunks s l : (forall rb, In rb l -> In rb (chunks s)) -> forallb sp l = true -> blank U (sconcat (map snd l)).
Proof.
  intros I F. exists (map fst l). split.
  - induction l as [|[r b] l IH]; [reflexivity|]. cbn in F. apply andb_true_iff in F as [F1 F2]. cbn [map sconcat encode fst snd].
    rewrite IH; [|intros; apply I; now right|exact F2]. f_equal.
    destruct (chunk_view s r b) as [[V ->]| ->]; [apply I; now left|reflexivity|]. unfold sp in F1. cbn in F1. unfold RuneError in F1. congruence.
  - intros r H. apply in_map_iff in H as ([r' b] & <- & H). rewrite forallb_forall in F. specialize (F _ H). unfold sp in F. cbn in *.
    split; [|exact F]. destruct (chunk_view s r' b) as [[V _]| ->]; [auto|exact V|]. reflexivity.
Qed.

Lemma sconcat_app a b : sconcat (a ++ b) = (sconcat a ++ sconcat b)%string.
Proof. induction a as [|x a IH]; cbn; [reflexivity|]. now rewrite IH, sapp_assoc. Qed.

Lemma blank_encode b : blank U b -> exists l, b = encode l /\ Forall (fun r => valid_rune r = true) l /\ forallb sp (map (fun r => (r, encode_rune r)) l) = true.
Proof.
  intros (rs & -> & H). exists rs. repeat split.
  - apply Forall_forall. intros r I. apply H, I.
  - apply forallb_forall. intros x I. apply in_map_iff in I as (r & <- & I). apply H, I.
Qed.

Lemma chunks_text s : sconcat (map snd (chunks s)) = s.
Proof. apply (chunks_fine _ s (le_n _)). Qed.

(** A stripped text begins and ends with runes that are no white space. *)
Lemma not_starting t r b l : (forall r rest, valid_rune r = true -> uIsSpace U r = true -> t <> (encode_rune r ++ rest)%string) ->
  chunks t = (r, b) :: l -> uIsSpace U r = false.
Proof.
  intros N E. destruct (uIsSpace U r) eqn:S; [|reflexivity]. exfalso.
  destruct (chunk_view t r b) as [[V ->]| ->]; [rewrite E; now left| |unfold RuneError in S; congruence].
  apply (N r (sconcat (map snd l)) V S). rewrite <- (chunks_text t) at 1. rewrite E. reflexivity.
Qed.

Lemma not_ending t r b l : (forall r rest, valid_rune r = true -> uIsSpace U r = true -> t <> (rest ++ encode_rune r)%string) ->
  chunks t = l ++ [(r, b)] -> uIsSpace U r = false.
Proof.
  intros N E. destruct (uIsSpace U r) eqn:S; [|reflexivity]. exfalso.
  destruct (chunk_view t r b) as [[V ->]| ->]; [rewrite E; apply in_or_app; right; now left| |unfold RuneError in S; congruence].
  apply (N r (sconcat (map snd l)) V S). rewrite <- (chunks_text t) at 1. rewrite E, map_app, sconcat_app. cbn. now rewrite sapp_nil_r.
Qed.

Lemma trim_unique s t : stripped U s t -> TrimSpace U s = t.
Proof.
  intros ((a & b & -> & A & B) & N1 & N2). unfold TrimSpace. fold sp.
  destruct (blank_encode a A) as (la & -> & Va & Sa). destruct (blank_encode b B) as (lb & -> & Vb & Sb).
  assert (F : fresh_start (encode lb)) by (rewrite <- (sapp_nil_r (encode lb)); apply encode_fresh; exact I).
  rewrite chunks_encode_app, (chunks_app t _ F) by exact Va.
  replace (chunks (encode lb)) with (map (fun r => (r, encode_rune r)) lb).
  2:{ rewrite <- (sapp_nil_r (encode lb)), chunks_encode_app by exact Vb. cbn. now rewrite app_nil_r. }
  rewrite (drop_while_all sp _ _ Sa). set (Lb := map (fun r => (r, encode_rune r)) lb) in *.
  assert (Rev : forall l, forallb sp l = true -> forallb sp (rev l) = true).
  { intros l H. apply forallb_forall. intros x I. apply in_rev in I. rewrite forallb_forall in H. auto. }
  destruct (chunks t) as [|[r x] l] eqn:E.
  - replace t with EmptyString by (symmetry; apply chunks_empty; exact E). cbn [app].
    replace (drop_while sp Lb) with (@nil (N * string)); [reflexivity|]. rewrite <- (app_nil_r Lb), drop_while_all by exact Sb. reflexivity.
  - pose proof (not_starting t r x l N1 E) as S. cbn [app drop_while]. replace (sp (r, x)) with false by (symmetry; exact S).
    change ((r, x) :: l ++ Lb) with (((r, x) :: l) ++ Lb). rewrite rev_app_distr, drop_while_all by auto.
    destruct (@exists_last _ ((r, x) :: l)) as (l' & [r' x'] & E'); [discriminate|].
    rewrite E', rev_app_distr. cbn [rev app drop_while]. rewrite E' in E. pose proof (not_ending t r' x' l' N2 E) as S'.
    replace (sp (r', x')) with false by (symmetry; exact S'). cbn [rev]. rewrite rev_involutive, <- E. apply chunks_text.
Qed.

Lemma trim_stripped s : stripped U s (TrimSpace U s).
Proof.
  unfold TrimSpace. fold sp. destruct (drop_while_split sp (chunks s)) as (a & Ea & Sa & Na). set (l := drop_while sp (chunks s)) in *.
  destruct (drop_while_split sp (rev l)) as (b & Eb & Sb & Nb). set (m := drop_while sp (rev l)) in *.
  assert (El : l = rev m ++ rev b) by (rewrite <- rev_app_distr, <- Eb; symmetry; apply rev_involutive).
  assert (Es : s = (sconcat (map snd a) ++ sconcat (map snd (rev m)) ++ sconcat (map snd (rev b)))%string).
  { rewrite <- (chunks_text s) at 1. rewrite Ea, El, !map_app, !sconcat_app. reflexivity. }
  assert (Bl : blank U (sconcat (map snd (rev b)))).
  { apply (blank_chunks s).
    - intros rb I. rewrite Ea, El. apply in_or_app. right. apply in_or_app. now right.
    - apply forallb_forall. intros x I. apply in_rev in I. rewrite forallb_forall in Sb. auto. }
  assert (Ba : blank U (sconcat (map snd a))).
  { apply (blank_chunks s); [|exact Sa]. intros rb I. rewrite Ea. apply in_or_app. now left. }
  assert (C : chunks (sconcat (map snd (rev m))) = rev m).
  { destruct (blank_encode _ Ba) as (la & A1 & A2 & A3). destruct (blank_encode _ Bl) as (lb & B1 & B2 & B3).
    assert (F : fresh_start (encode lb)) by (rewrite <- (sapp_nil_r (encode lb)); apply encode_fresh; exact I).
    pose proof Ea as G. rewrite El in G. rewrite Es, A1, B1, chunks_encode_app, (chunks_app _ _ F) in G by exact A2.
    rewrite <- (sapp_nil_r (encode lb)), (chunks_encode_app lb "") in G by exact B2. cbn [chunks] in G. rewrite app_nil_r in G.
    assert (Len : forall x : list (N * string), (forall rb, In rb x -> In rb (chunks s)) -> forallb sp x = true ->
        x = map (fun r => (r, encode_rune r)) (map fst x)).
    { intros x I F'. rewrite map_map. rewrite <- (map_id x) at 1. apply map_ext_in. intros [r y] H. cbn.
      rewrite forallb_forall in F'. specialize (F' _ H). destruct (chunk_view s r y (I _ H)) as [[V ->]| ->]; [reflexivity|].
      unfold sp in F'. cbn in F'. unfold RuneError in F'. congruence. }
    assert (X1 : a = map (fun r => (r, encode_rune r)) la).
    { assert (I : forall rb, In rb a -> In rb (chunks s)) by (intros rb I; rewrite Ea; apply in_or_app; now left).
      assert (Va : chunks (sconcat (map snd a)) = a).
      { assert (Y : sconcat (map snd a) = encode (map fst a)).
        { rewrite (Len a I Sa). clear. induction (map fst a) as [|x l IH]; cbn; [reflexivity|]. now rewrite IH. }
        rewrite Y, <- (sapp_nil_r (encode _)), chunks_encode_app.
        - cbn. rewrite app_nil_r. symmetry. apply Len; auto.
        - apply Forall_forall. intros r H. apply in_map_iff in H as ([r' y] & <- & H). destruct (chunk_view s r' y (I _ H)) as [[V _]| ->]; [exact V|reflexivity]. }
      rewrite <- Va, A1, <- (sapp_nil_r (encode _)), chunks_encode_app by exact A2. cbn. now rewrite app_nil_r. }
    assert (X2 : rev b = map (fun r => (r, encode_rune r)) lb).
    { assert (I : forall rb, In rb (rev b) -> In rb (chunks s)) by (intros rb I; rewrite Ea, El; apply in_or_app; right; apply in_or_app; now right).
      assert (Sr : forallb sp (rev b) = true) by (apply forallb_forall; intros x J; apply in_rev in J; rewrite forallb_forall in Sb; auto).
      assert (Va : chunks (sconcat (map snd (rev b))) = rev b).
      { assert (Y : sconcat (map snd (rev b)) = encode (map fst (rev b))).
        { rewrite (Len _ I Sr). clear. induction (map fst (rev b)) as [|x l IH]; cbn; [reflexivity|]. now rewrite IH. }
        rewrite Y, <- (sapp_nil_r (encode _)), chunks_encode_app.
        - cbn. rewrite app_nil_r. symmetry. apply Len; auto.
        - apply Forall_forall. intros r H. apply in_map_iff in H as ([r' y] & <- & H). destruct (chunk_view s r' y (I _ H)) as [[V _]| ->]; [exact V|reflexivity]. }
      rewrite <- Va, B1, <- (sapp_nil_r (encode _)), chunks_encode_app by exact B2. cbn. now rewrite app_nil_r. }
    rewrite <- X1, <- X2 in G. apply app_inv_head in G. apply app_inv_tail in G. exact G. }
  split; [|split].
  - exists (sconcat (map snd a)), (sconcat (map snd (rev b))). auto.
  - intros r rest V S E. rewrite E, encode_rune_valid, chunks_enc in C by exact V.
    assert (H : l = (r, enc_raw r) :: chunks rest ++ rev b) by (rewrite El, <- C; reflexivity).
    specialize (Na _ _ H). unfold sp in Na. cbn in Na. congruence.
  - intros r rest V S E. rewrite E, encode_rune_valid in C by exact V.
    assert (F : fresh_start (enc_raw r)) by (rewrite <- (sapp_nil_r (enc_raw r)); apply enc_raw_fresh; exact V).
    rewrite (chunks_app _ _ F) in C. rewrite <- (sapp_nil_r (enc_raw r)), chunks_enc in C by exact V. cbn [chunks] in C.
    assert (H : m = (r, enc_raw r) :: rev (chunks rest)).
    { rewrite <- (rev_involutive m), <- C, rev_app_distr. reflexivity. }
    specialize (Nb _ _ H). unfold sp in Nb. cbn in Nb. congruence.
Qed.
End Trim.

(** ** Maps and words *)
Local Open Scope nat_scope.

Lemma gset_In k v m k' v' : In (k', v') (gset k v m) <-> (k' = k /\ v' = v) \/ (k' <> k /\ In (k', v') m).
Proof.
  unfold gset. rewrite in_app_iff, filter_In. cbn [In fst]. split.
  - intros [[I N]|[[= -> ->]|[]]]; [right|left; auto]. split; [|exact I]. intros ->. now rewrite seqb_refl in N.
  - intros [[-> ->]|[N I]]; [right; left; reflexivity|left]. split; [exact I|]. destruct (seqb k' k) eqn:E; [|reflexivity].
    apply seqb_eq in E. contradiction.
Qed.

Lemma NoDup_fst_filter (p : string * string -> bool) m : NoDup (map fst m) -> NoDup (map fst (filter p m)).
Proof.
  induction m as [|x m IH]; cbn; [auto|]. intros N. inversion N as [|? ? N1 N2]; subst. destruct (p x); cbn; [|auto].
  constructor; [|auto]. intros H. apply N1. apply in_map_iff in H as (y & E & I). apply filter_In in I as [I _]. apply in_map_iff. eauto.
Qed.

Lemma gset_NoDup k v m : NoDup (map fst m) -> NoDup (map fst (gset k v m)).
Proof.
  intros N. unfold gset. rewrite map_app. cbn.
  assert (R : forall l : list string, NoDup l -> ~ In k l -> NoDup (l ++ [k])).
  { intros l Nl Nk. apply (Permutation_NoDup (l := k :: l)); [|constructor; auto]. apply (Permutation_app_comm [k] l). }
  apply R; [apply NoDup_fst_filter, N|]. intros I. apply in_map_iff in I as ([k' v'] & E & I). cbn in E. subst.
  apply filter_In in I as [_ F]. cbn in F. now rewrite seqb_refl in F.
Qed.

Lemma occurrences_app c a b : occurrences c (a ++ b) = occurrences c a + occurrences c b.
Proof.
  unfold occurrences. induction a as [|x a IH]; cbn [append list_ascii_of_string count_occ]; [reflexivity|].
  destruct (ascii_dec x c); cbn; now rewrite IH.
Qed.

Lemma split_on_ne sep s : exists x l, split_on sep s = x :: l.
Proof. induction s as [|c s (x & l & E)]; cbn; [eauto|]. rewrite E. destruct (Ascii.eqb c sep); eauto. Qed.

Lemma split_on_length sep s : length (split_on sep s) = S (occurrences sep s).
Proof.
  induction s as [|c s IH]; cbn; [reflexivity|]. unfold occurrences in *. cbn [list_ascii_of_string count_occ].
  destruct (split_on_ne sep s) as (x & l & E). destruct (Ascii.eqb c sep) eqn:A.
  - apply Ascii.eqb_eq in A. subst. destruct (ascii_dec sep sep); [|congruence]. cbn. now rewrite IH.
  - destruct (ascii_dec c sep) as [->|N]; [rewrite Ascii.eqb_refl in A; discriminate|]. rewrite E in *. cbn in *. lia.
Qed.

Lemma occurrences_0_cons sep c s : occurrences sep (String c s) = 0 -> c <> sep /\ occurrences sep s = 0.
Proof. unfold occurrences. cbn. destruct (ascii_dec c sep); [discriminate|]. auto. Qed.

Lemma split_on_none sep s : occurrences sep s = 0 -> split_on sep s = [s].
Proof.
  induction s as [|c s IH]; intros H; cbn; [reflexivity|]. apply occurrences_0_cons in H as [N H]. rewrite (IH H).
  destruct (Ascii.eqb c sep) eqn:A; [apply Ascii.eqb_eq in A; contradiction|reflexivity].
Qed.

Lemma split_on_app sep a b : occurrences sep a = 0 -> split_on sep (a ++ String sep b) = a :: split_on sep b.
Proof.
  induction a as [|c a IH]; intros H; cbn; [now rewrite Ascii.eqb_refl|]. apply occurrences_0_cons in H as [N H]. rewrite (IH H).
  destruct (Ascii.eqb c sep) eqn:A; [apply Ascii.eqb_eq in A; contradiction|reflexivity].
Qed.

Lemma split_on_join sep s x l : split_on sep s = x :: l ->
  (l = [] /\ s = x /\ occurrences sep s = 0) \/ (exists s', s = (x ++ String sep s')%string /\ split_on sep s' = l /\ occurrences sep x = 0).
Proof.
  revert x l. induction s as [|c s IH]; cbn; intros x l.
  - intros [= <- <-]. left. auto.
  - destruct (Ascii.eqb c sep) eqn:A.
    + apply Ascii.eqb_eq in A. subst. intros [= <- <-]. right. exists s. auto.
    + assert (N : c <> sep) by (intros ->; rewrite Ascii.eqb_refl in A; discriminate).
      destruct (split_on_ne sep s) as (y & m & E). rewrite E. intros [= <- <-].
      destruct (IH _ _ E) as [(-> & -> & O)|(s' & -> & E' & O)]; [left|right].
      * repeat split. unfold occurrences in *. cbn. destruct (ascii_dec c sep); [contradiction|exact O].
      * exists s'. repeat split; auto. unfold occurrences in *. cbn. destruct (ascii_dec c sep); [contradiction|exact O].
Qed.

Lemma split_two sep s a b : split_on sep s = [a; b] -> s = (a ++ String sep b)%string /\ occurrences sep a = 0 /\ occurrences sep b = 0.
Proof.
  intros H. destruct (split_on_join _ _ _ _ H) as [(E & _)|(s' & -> & E & O)]; [discriminate|].
  destruct (split_on_join _ _ _ _ E) as [(_ & -> & O')|(s'' & _ & E' & _)]; [auto|].
  destruct (split_on_ne sep s'') as (? & ? & E''). congruence.
Qed.

(** ** C60 *)

Section Nba.
Variable U : unicode.
Variable errorf : string -> nat -> error.
Hypothesis ErrSp : uIsSpace U 65533 = false.

Lemma player_spec name a b : split_on "," name = [a; b] -> forall k c,
  player U name k c <->
  c = (TrimSpace U b ++ " " ++ TrimSpace U a)%string /\
  k = join ", " (if snd (FoldString c) then [c] ++ [fst (FoldString c)] else [c]).
Proof.
  intros E k c. destruct (split_two _ _ _ _ E) as (-> & Oa & Ob). split.
  - intros (last & first & l & f & En & Sl & Sf & Ec & K).
    assert (X : last = a /\ first = b).
    { assert (O : occurrences "," last = 0).
      { assert (T : occurrences "," (last ++ "," ++ first) = 1) by (rewrite <- En, occurrences_app; cbn; unfold occurrences in *; cbn in *; lia).
        rewrite occurrences_app in T. change ("," ++ first)%string with (String "," first) in T. unfold occurrences in T. cbn in T.
        unfold occurrences. lia. }
      assert (T : split_on "," (last ++ String "," first) = [a; b]) by (change (String "," first) with ("," ++ first)%string; rewrite <- En; exact E).
      rewrite split_on_app in T by exact O. injection T as -> T. split; [reflexivity|].
      destruct (split_on_join _ _ _ _ T) as [(_ & -> & _)|(s' & _ & T' & _)]; [reflexivity|]. destruct (split_on_ne "," s') as (? & ? & T''). congruence. }
    destruct X as [-> ->]. rewrite (trim_unique U ErrSp _ _ Sl), (trim_unique U ErrSp _ _ Sf). split; [exact Ec|].
    destruct K as [(x & -> & ->)|(-> & ->)]; reflexivity.
  - intros (Ec & ->). exists a, b, (TrimSpace U a), (TrimSpace U b). repeat split; auto using trim_stripped; try apply trim_stripped; auto.
    destruct (FoldString c) as [x [|]] eqn:F; [left|right]; cbn [snd fst join app]; eauto.
Qed.

Lemma comma_free_trim s : occurrences "," s = 0 -> occurrences "," (TrimSpace U s) = 0.
Proof.
  intros O. destruct (trim_stripped U ErrSp s) as ((a & b & E & _) & _). rewrite E, !occurrences_app in O. lia.
Qed.

Lemma player_functional n1 n2 a1 b1 a2 b2 k c1 c2 : split_on "," n1 = [a1; b1] -> split_on "," n2 = [a2; b2] ->
  player U n1 k c1 -> player U n2 k c2 -> c1 = c2.
Proof.
  intros E1 E2 P1 P2. apply (player_spec _ _ _ E1) in P1 as (C1 & K1). apply (player_spec _ _ _ E2) in P2 as (C2 & K2).
  destruct (split_two _ _ _ _ E1) as (_ & A1 & B1). destruct (split_two _ _ _ _ E2) as (_ & A2 & B2).
  assert (O : forall a b c, occurrences "," a = 0 -> occurrences "," b = 0 -> c = (TrimSpace U b ++ " " ++ TrimSpace U a)%string -> occurrences "," c = 0).
  { intros a b c Oa Ob ->. rewrite !occurrences_app, !comma_free_trim by assumption. reflexivity. }
  pose proof (O _ _ _ A1 B1 C1) as O1. pose proof (O _ _ _ A2 B2 C2) as O2. clear O C1 C2.
  assert (H : forall c, occurrences "," c = 0 -> k = join ", " (if snd (FoldString c) then [c] ++ [fst (FoldString c)] else [c]) ->
     exists l, split_on "," k = c :: l).
  { intros c O ->. destruct (snd (FoldString c)); cbn [app join].
    - change (", " ++ fst (FoldString c))%string with (String "," (" " ++ fst (FoldString c))). rewrite split_on_app by exact O. eauto.
    - rewrite split_on_none by exact O. eauto. }
  destruct (H _ O1 K1) as [l1 S1]. destruct (H _ O2 K2) as [l2 S2]. congruence.
Qed.

Lemma nba_loop_spec names : (forall n, In n names -> occurrences "," n = 1) -> forall done m,
  (forall n, In n done -> occurrences "," n = 1) -> NoDup (map fst m) ->
  (forall k c, In (k, c) m <-> exists name, In name done /\ player U name k c) ->
  exists m', nba_loop U errorf names m = (Some m', None) /\ NoDup (map fst m') /\
  (forall k c, In (k, c) m' <-> exists name, In name (done ++ names) /\ player U name k c).
Proof.
  assert (Two : forall n, occurrences "," n = 1 -> exists a b, split_on "," n = [a; b]).
  { intros n H. pose proof (split_on_length "," n) as L. rewrite H in L. destruct (split_on "," n) as [|a [|b [|x l]]]; try discriminate. eauto. }
  induction names as [|n names IH]; intros G done m Gd ND M; cbn [nba_loop].
  - exists m. rewrite app_nil_r. auto.
  - destruct (Two n) as (a & b & E); [apply G; now left|]. rewrite E.
    set (c := (TrimSpace U b ++ " " ++ TrimSpace U a)%string). destruct (FoldString c) as [x fo] eqn:F.
    set (k := join ", " (if fo then [c] ++ [x] else [c])).
    assert (P : player U n k c) by (apply (player_spec _ _ _ E); split; [reflexivity|rewrite F; reflexivity]).
    destruct (IH (fun n' I => G n' (or_intror I)) (done ++ [n]) (gset k c m)) as (m' & L & ND' & M').
    + intros n' I. apply in_app_or in I as [I|[<-|[]]]; [auto|]. apply G. now left.
    + apply gset_NoDup, ND.
    + intros k' c'. rewrite gset_In, M. split.
      * intros [[-> ->]|[_ (n' & I & P')]]; [exists n|exists n']; (split; [|assumption]); apply in_or_app; [right; now left|now left].
      * intros (n' & I & P'). apply in_app_or in I as [I|[<-|[]]].
        -- destruct (string_dec k' k) as [->|Nk]; [left|right; eauto]. split; [reflexivity|].
           destruct (Two n' (Gd _ I)) as (a' & b' & E'). exact (player_functional _ _ _ _ _ _ _ _ _ E' E P' P).
        -- left. apply (player_spec _ _ _ E) in P'. destruct P' as (-> & ->). fold c. rewrite F. auto.
    + rewrite <- app_assoc in M'. exists m'. auto.
Qed.

Lemma nba_loop_error pre bad post : (forall n, In n pre -> occurrences "," n = 1) -> occurrences "," bad <> 1 -> forall m,
  nba_loop U errorf (pre ++ bad :: post) m = (None, Some (errorf bad (S (occurrences "," bad)))).
Proof.
  intros G B. induction pre as [|n pre IH]; intros m; cbn [nba_loop app].
  - rewrite <- split_on_length. pose proof (split_on_length "," bad) as L.
    destruct (split_on "," bad) as [|a [|b [|x l]]] eqn:E; try reflexivity. cbn in L. lia.
  - pose proof (split_on_length "," n) as L. rewrite (G n (or_introl eq_refl)) in L.
    destruct (split_on "," n) as [|a [|b [|x l]]]; try discriminate.
    destruct (FoldString (TrimSpace U b ++ " " ++ TrimSpace U a)). apply IH. intros; apply G; now right.
Qed.
End Nba.
