(** * TokenProofs: facts about NewToken and about the consumers of a stream. *)

From Verif Require Import Base Utf8 Unicode Token Stream StreamSpec ListSpec StreamProofs Utf8Proofs.

Lemma seqb_eq a b : seqb a b = true <-> a = b.
Proof. apply String.eqb_eq. Qed.

Lemma seqb_refl a : seqb a a = true.
Proof. apply String.eqb_refl. Qed.

Lemma smem_In x l : smem x l = true <-> In x l.
Proof.
  unfold smem. rewrite existsb_exists. split.
  - intros (y & H & E). apply seqb_eq in E. congruence.
  - intros H. exists x. split; auto using seqb_refl.
Qed.

Section WithUnicode.
Variable U : unicode.

Lemma assoc_map {V} (f : string -> V) k l :
  assoc k (map (fun s => (s, f s)) l) = if smem k l then Some (f k) else None.
Proof.
  induction l as [|a l IH]; [reflexivity|]. cbn [map assoc smem existsb].
  destruct (seqb k a) eqn:E; cbn [orb].
  - apply seqb_eq in E. now subst.
  - exact IH.
Qed.

(** The cache is transparent. *)
Lemma NewToken_uncached s b : NewToken U s b = new_token_uncached U s b.
Proof.
  unfold NewToken, common. rewrite (assoc_map (fun s => (new_token_uncached U s true, new_token_uncached U s false))).
  destruct (smem s common_strings); [|reflexivity]. destruct b; reflexivity.
Qed.

Lemma all_runes_forall p rs : all_runes p rs = true <-> forall r, In r rs -> p r = true.
Proof.
  induction rs as [|r rs IH]; simpl; [split; [intros _ r []|auto]|].
  destruct (p r) eqn:E; simpl.
  - rewrite IH. split; [intros H x [<-|Hx]|]; auto.
  - split; [discriminate|]. intros H. rewrite (H r) in E; auto.
Qed.

Lemma NewToken_nil b : NewToken U "" b = None.
Proof. reflexivity. Qed.

Lemma NewToken_cons s b : s <> EmptyString -> exists t, NewToken U s b = Some t.
Proof.
  intros H. rewrite NewToken_uncached. unfold new_token_uncached.
  destruct s as [|c s]; [congruence|]. cbn [String.length Nat.eqb].
  destruct (seqb (String c s) crlf); eauto.
Qed.

Lemma NewToken_value s b t : NewToken U s b = Some t -> tvalue t = s /\ tlemma t = b /\ s <> EmptyString.
Proof.
  rewrite NewToken_uncached. unfold new_token_uncached. destruct s as [|c s]; [discriminate|].
  cbn [String.length Nat.eqb].
  destruct (seqb (String c s) crlf); intros H; inversion H; subst; cbn; repeat split; congruence.
Qed.

Lemma isPunct_spec r : isPunct U r = true <->
  uIsPunct U r = true \/ r = 10%N \/ r = 13%N \/ r = 9%N.
Proof.
  unfold isPunct, spaceIsPunct. rewrite !orb_true_iff, !N.eqb_eq. tauto.
Qed.

Lemma NewToken_class s b t :
  uIsSpace U 13 = true -> uIsSpace U 10 = true -> NewToken U s b = Some t ->
  (tpunct t = true <-> forall r, In r (runes s) -> isPunct U r = true) /\
  (tspace t = true <-> forall r, In r (runes s) -> uIsSpace U r = true).
Proof.
  intros H13 H10. rewrite NewToken_uncached. unfold new_token_uncached.
  destruct (Nat.eqb (String.length s) 0); [discriminate|].
  destruct (seqb s crlf) eqn:E; intros H; inversion H; subst; cbn [tpunct tspace].
  - apply seqb_eq in E. subst. change (runes crlf) with [13%N; 10%N].
    assert (P : forall r, In r [13%N; 10%N] -> isPunct U r = true).
    { intros r Hr. apply isPunct_spec. simpl in Hr. intuition. }
    assert (S : forall r, In r [13%N; 10%N] -> uIsSpace U r = true).
    { intros r [<-|[<-|[]]]; assumption. }
    tauto.
  - rewrite !all_runes_forall. tauto.
Qed.

End WithUnicode.

(* ------------------------------------------------------------------ *)
(** ** Fields of a stream (C03) *)

Section Fields.
Context {X : Type} (step : nat -> X -> outcome (result * X)) (x0 : X).

Lemma reachable_closure s : Reachable (NewTokenStream step x0) s ->
  exists x, ts_next s = ts_next (closure step None None x).
Proof.
  induction 1 as [|s fuel r s' R (x & IH) H|s fuel b s' R (x & IH) H].
  - exists x0. reflexivity.
  - unfold Next in H. rewrite IH in H. cbn in H.
    destruct (step fuel x) as [[r1 x1]| |] eqn:E; inversion H; subst. exists x1. reflexivity.
  - unfold Scan, Next in H. rewrite IH in H. cbn in H.
    destruct (step fuel x) as [[r1 x1]| |] eqn:E; inversion H; subst. exists x1. reflexivity.
Qed.

Lemma fields_next s fuel r s' : Reachable (NewTokenStream step x0) s ->
  Next fuel s = Ret (r, s') -> Token s' = fst r /\ Err s' = snd r.
Proof.
  intros R H. destruct (reachable_closure _ R) as (x & E). unfold Next in H. rewrite E in H.
  cbn in H. destruct (step fuel x) as [[r1 x1]| |]; inversion H; subst. split; reflexivity.
Qed.

Lemma fields_scan s fuel b s' : Reachable (NewTokenStream step x0) s ->
  Scan fuel s = Ret (b, s') ->
  exists r s1, Next fuel s = Ret (r, s1) /\ Token s' = fst r /\ Err s' = snd r /\
    ts_next s' = ts_next s1 /\ (b = true <-> exists t, r = (Some t, None)).
Proof.
  intros R H. unfold Scan in H. destruct (Next fuel s) as [[r s1]| |] eqn:E; try discriminate.
  cbn in H. inversion H; subst. exists r, s1. repeat split.
  - destruct r as [[t|] [e|]]; cbn; intros; try discriminate. eauto.
  - intros (t & ->). reflexivity.
Qed.
End Fields.

(* ------------------------------------------------------------------ *)
(** ** WriteTo (C05) *)

Lemma substring_0_app n a b : String.length a <= n ->
  substring 0 n (a ++ b) = (a ++ substring 0 (n - String.length a) b)%string.
Proof.
  revert n. induction a as [|c a IH]; intros n H; simpl in *.
  - now rewrite Nat.sub_0_r.
  - destruct n as [|n]; [lia|]. simpl. rewrite IH by lia. reflexivity.
Qed.

Lemma substring_0_prefix n a b : n <= String.length a -> substring 0 n (a ++ b) = substring 0 n a.
Proof.
  revert n. induction a as [|c a IH]; intros n H; simpl in *.
  - assert (n = 0) by lia. subst. destruct b; reflexivity.
  - destruct n as [|n]; [reflexivity|]. rewrite IH by lia. reflexivity.
Qed.

Lemma substring_0_full a : substring 0 (String.length a) a = a.
Proof. induction a; simpl; congruence. Qed.

Lemma substring_0_0 a : substring 0 0 a = EmptyString.
Proof. destruct a; reflexivity. Qed.

Definition write_post (w : writer) (acc : wstate w -> string) (log : wstate w -> list string)
    (l : list token) (e : option error) (ws : wstate w) (n : nat) (err : option error) (ws' : wstate w) : Prop :=
  n <= String.length (text l) /\ acc ws' = (acc ws ++ substring 0 n (text l))%string /\
  ((log ws' = log ws ++ map tvalue l /\ n = String.length (text l) /\ err = e) \/
   (exists l1 t l2 ws1 m we, l = l1 ++ t :: l2 /\ log ws' = log ws ++ map tvalue l1 ++ [tvalue t] /\
      wwrite w ws1 (tvalue t) = ((m, Some we), ws') /\ err = Some we /\
      n = String.length (text l1) + m)).

Lemma writeto_emits w acc log : good_writer w acc log -> forall s l e s', Emits s l e s' ->
  forall ws n0, exists n err ws' s2,
  Returns2 (fun fuel k => writeto_loop w fuel k n0 ws s) ((n0 + n, err), (ws', s2)) /\
  write_post w acc log l e ws n err ws'.
Proof.
  intros G. induction 1 as [s s' N|s o e s' N|s t s1 l e s2 N E IH]; intros ws n0.
  - destruct (Scan_eof _ _ N) as [m Hm].
    exists 0, None, ws, (set_fields (None, None) s'). split.
    + rewrite Nat.add_0_r. eapply (Returns2_step _ _ _ m); [|apply Returns2_const].
      intros fuel k Hf. simpl. rewrite Hm by lia. reflexivity.
    + unfold write_post. cbn. rewrite sapp_nil_r, app_nil_r. auto 10.
  - destruct (Scan_err _ _ _ _ N) as [m Hm].
    exists 0, (Some e), ws, (set_fields (o, Some e) s'). split.
    + rewrite Nat.add_0_r. eapply (Returns2_step _ _ _ m); [|apply Returns2_const].
      intros fuel k Hf. simpl. rewrite Hm by lia. reflexivity.
    + unfold write_post. cbn. rewrite sapp_nil_r, app_nil_r. auto 10.
  - destruct (Scan_token _ _ _ N) as [m Hm].
    destruct (wwrite w ws (tvalue t)) as [[n1 err1] ws1] eqn:W.
    destruct (G _ _ _ _ _ W) as (L1 & L2 & L3 & L4). destruct err1 as [we|].
    + exists n1, (Some we), ws1, (set_fields (Some t, None) s1). split.
      * eapply (Returns2_step _ _ _ m); [|apply Returns2_const].
        intros fuel k Hf. simpl. rewrite Hm by lia. simpl. rewrite W. reflexivity.
      * unfold write_post. rewrite text_cons. repeat split.
        -- rewrite sapp_length. lia.
        -- rewrite L3, substring_0_prefix by lia. reflexivity.
        -- right. exists [], t, l, ws, n1, we. cbn. auto.
    + specialize (L2 eq_refl). subst n1.
      destruct (IH ws1 (n0 + String.length (tvalue t))) as (n & err & ws' & s3 & R & P1 & P2 & P3).
      exists (String.length (tvalue t) + n), err, ws', s3. split.
      * rewrite Nat.add_assoc. eapply (Returns2_step _ _ _ m); [|exact R].
        intros fuel k Hf. simpl. rewrite Hm by lia. simpl. rewrite W. destruct k; reflexivity.
      * unfold write_post. rewrite text_cons. repeat split.
        -- rewrite sapp_length. lia.
        -- rewrite P2, L3, substring_0_app, sapp_assoc, substring_0_full by lia.
           do 3 f_equal. lia.
        -- destruct P3 as [(Q1 & Q2 & Q3)|(l1 & t' & l2 & ws2 & m2 & we & Q1 & Q2 & Q3 & Q4 & Q5)].
           ++ left. rewrite sapp_length, Q1, L4, <- app_assoc. cbn. repeat split; auto.
           ++ right. exists (t :: l1), t', l2, ws2, m2, we. subst l.
              rewrite text_cons, sapp_length, Q2, L4, <- app_assoc. cbn. repeat split; auto. lia.
Qed.

Lemma WriteTo_emits w acc log : good_writer w acc log -> forall s l e s' ws, Emits s l e s' ->
  exists n err ws' s2,
  Returns (fun fuel => WriteTo w fuel ws s) ((n, err), (ws', s2)) /\
  write_post w acc log l e ws n err ws'.
Proof.
  intros G s l e s' ws E. destruct (writeto_emits w acc log G _ _ _ _ E ws 0) as (n & err & ws' & s2 & R & P).
  exists n, err, ws', s2. split; [|exact P]. exact (Returns2_diag _ _ R).
Qed.

(* ------------------------------------------------------------------ *)
(** ** Distinct (C08) *)

Lemma Subseq_filter {A} (p : A -> bool) l : Subseq (filter p l) l.
Proof. induction l as [|x l IH]; simpl; [constructor|]. destruct (p x); constructor; auto. Qed.

Lemma first_occ_sub l : forall seen, Subseq (first_occurrences seen l) l.
Proof.
  induction l as [|t l IH]; intros seen; simpl; [constructor|].
  destruct (smem (tvalue t) seen); constructor; auto.
Qed.

Lemma first_occ_values l : forall seen v,
  In v (map tvalue (first_occurrences seen l)) <-> In v (map tvalue l) /\ ~ In v seen.
Proof.
  induction l as [|t l IH]; intros seen v; simpl; [tauto|].
  destruct (smem (tvalue t) seen) eqn:E.
  - apply smem_In in E. rewrite IH. split; [tauto|]. intros [[<-|H] N]; tauto.
  - assert (~ In (tvalue t) seen) as N by (rewrite <- smem_In; congruence).
    simpl. rewrite IH. simpl. split.
    + intros [<-|[H1 H2]]; tauto.
    + intros [[<-|H1] H2]; [tauto|]. destruct (string_dec (tvalue t) v); [tauto|]. tauto.
Qed.

Lemma first_occ_nodup l : forall seen, NoDup (map tvalue (first_occurrences seen l)).
Proof.
  induction l as [|t l IH]; intros seen; simpl; [constructor|].
  destruct (smem (tvalue t) seen); [auto|]. simpl. constructor; [|auto].
  rewrite first_occ_values. simpl. tauto.
Qed.

Lemma first_occ_first l : forall seen t, In t (first_occurrences seen l) ->
  exists a b, l = a ++ t :: b /\ Fresh t a.
Proof.
  induction l as [|u l IH]; intros seen t; simpl; [intros []|].
  destruct (smem (tvalue u) seen) eqn:E.
  - intros H. pose proof (proj1 (first_occ_values l seen (tvalue t)) (in_map _ _ _ H)) as [_ N].
    destruct (IH _ _ H) as (a & b & -> & F). exists (u :: a), b. split; [reflexivity|].
    unfold Fresh in *. simpl. intros [Hu|Ha]; [|auto]. apply N. rewrite <- Hu. now apply smem_In.
  - intros [<-|H].
    + exists [], l. split; [reflexivity|]. unfold Fresh. simpl. tauto.
    + pose proof (proj1 (first_occ_values l _ (tvalue t)) (in_map _ _ _ H)) as [_ N].
      destruct (IH _ _ H) as (a & b & -> & F). exists (u :: a), b. split; [reflexivity|].
      unfold Fresh in *. simpl in *. tauto.
Qed.

Lemma first_occ_id l : forall seen, NoDup (map tvalue l) ->
  (forall v, In v (map tvalue l) -> ~ In v seen) -> first_occurrences seen l = l.
Proof.
  induction l as [|t l IH]; intros seen ND H; simpl; [reflexivity|].
  inversion ND; subst. destruct (smem (tvalue t) seen) eqn:E.
  - apply smem_In in E. exfalso. eapply H; [left; reflexivity|exact E].
  - f_equal. apply IH; [assumption|]. intros v Hv [<-|Hs]; [contradiction|].
    eapply H; [right; exact Hv|exact Hs].
Qed.

Lemma first_occ_idem l : first_occurrences [] (first_occurrences [] l) = first_occurrences [] l.
Proof. apply first_occ_id; [apply first_occ_nodup|]. auto. Qed.

Definition distinct_post (l l' : list token) : Prop :=
  Subseq l' l /\ NoDup (map tvalue l') /\
  (forall v, In v (map tvalue l') <-> In v (map tvalue l)) /\
  (forall t, In t l' -> exists a b, l = a ++ t :: b /\ Fresh t a).

Lemma first_occ_post l : distinct_post l (first_occurrences [] l).
Proof.
  split; [apply first_occ_sub|]. split; [apply first_occ_nodup|].
  split; [intros v; rewrite first_occ_values; simpl; tauto|]. apply first_occ_first.
Qed.

Lemma filter_idem {A} (p : A -> bool) l : filter p (filter p l) = filter p l.
Proof.
  induction l as [|x l IH]; simpl; [reflexivity|]. destruct (p x) eqn:E; simpl; [rewrite E, IH|]; auto.
Qed.

Lemma filter_comm {A} (p q : A -> bool) l : filter p (filter q l) = filter q (filter p l).
Proof.
  induction l as [|x l IH]; simpl; [reflexivity|].
  destruct (p x) eqn:E; destruct (q x) eqn:F; simpl; rewrite ?E, ?F, ?IH; reflexivity.
Qed.

(* ------------------------------------------------------------------ *)
(** ** Statements of C01 and C02 *)

Lemma C01_lemma (U : unicode) (s : string) (b : bool) :
  uIsSpace U 13 = true -> uIsSpace U 10 = true ->
  (NewToken U s b = None <-> s = EmptyString) /\
  (forall t, NewToken U s b = Some t ->
     tvalue t = s /\ tlemma t = b /\
     (tpunct t = true <->
        forall r, In r (runes s) -> uIsPunct U r = true \/ r = 10%N \/ r = 13%N \/ r = 9%N) /\
     (tspace t = true <-> forall r, In r (runes s) -> uIsSpace U r = true)).
Proof.
  intros H13 H10. split.
  - split; [|intros ->; reflexivity]. intros H. destruct (string_dec s EmptyString) as [|N]; [assumption|].
    destruct (NewToken_cons U s b N) as (t & E). congruence.
  - intros t H. destruct (NewToken_value U s b t H) as (A & B & _).
    destruct (NewToken_class U s b t H13 H10 H) as (C & D). repeat split; auto.
    + intros P r Hr. apply isPunct_spec. now apply C.
    + intros P. apply C. intros r Hr. apply isPunct_spec. auto.
    + apply D.
    + apply D.
Qed.

Lemma C02_lemma (s : string) :
  (encode (runes s) = s <-> exists l, Forall (fun r => valid_rune r = true) l /\ s = sconcat (map enc_raw l)) /\
  (encode (runes s) = s <-> valid_utf8 s = true).
Proof.
  assert (E : forall l, Forall (fun r => valid_rune r = true) l -> encode l = sconcat (map enc_raw l)).
  { induction 1; cbn [encode map sconcat]; [reflexivity|]. now rewrite encode_rune_valid, IHForall. }
  split; [|apply encode_runes_iff]. split.
  - intros H. exists (runes s). split; [apply runes_valid|]. rewrite <- E; auto using runes_valid.
  - intros (l & V & ->). rewrite <- E by auto. rewrite runes_encode. f_equal.
    clear E. induction V; cbn [map]; [reflexivity|]. unfold fix_rune at 1. now rewrite H, IHV.
Qed.
