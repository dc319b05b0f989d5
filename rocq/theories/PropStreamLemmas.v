(** * PropStreamLemmas: the lemmas behind C03 - C09. *)

From Verif Require Import Base Utf8 Unicode Token Stream StreamSpec ListSpec StreamProofs TokenProofs Sources.

Lemma C03_lemma (X : Type) (step : nat -> X -> outcome (result * X)) (x : X) (s : TokenStream) :
  Token (NewTokenStream step x) = None /\ Err (NewTokenStream step x) = None /\
  (Reachable (NewTokenStream step x) s ->
   (forall fuel r s', Next fuel s = Ret (r, s') -> Token s' = fst r /\ Err s' = snd r) /\
   (forall fuel b s', Scan fuel s = Ret (b, s') ->
      exists r s1, Next fuel s = Ret (r, s1) /\ Token s' = fst r /\ Err s' = snd r /\
        ts_next s' = ts_next s1 /\ (b = true <-> exists t, r = (Some t, None)))).
Proof.
  split; [reflexivity|]. split; [reflexivity|]. intros R. split.
  - intros fuel r s' H. eapply fields_next; eauto.
  - intros fuel b s' H. eapply fields_scan; eauto.
Qed.

Lemma C04_lemma s l e s' : Emits s l e s' ->
  exists s1 s2 s3,
  Returns (fun n => ToSlice n s) ((match e with None => l | Some _ => [] end, e), s1) /\
  Returns (fun n => StreamString n s) ((match e with None => text l | Some _ => EmptyString end, e), s2) /\
  Returns (fun n => Count n s) ((length l, e), s3) /\
  ts_next s1 = ts_next s' /\ ts_next s2 = ts_next s' /\ ts_next s3 = ts_next s'.
Proof.
  intros E. destruct (ToSlice_emits _ _ _ _ E) as (s1 & A1 & B1).
  destruct (StreamString_emits _ _ _ _ E) as (s2 & A2 & B2).
  destruct (Count_emits _ _ _ _ E) as (s3 & A3 & B3).
  exists s1, s2, s3. repeat split; assumption.
Qed.

(** A writer that accepts [cap] bytes in all and then fails. *)
Definition limited_writer (cap : nat) : writer :=
  mkWriter (string * list string) (fun ws v =>
    let room := cap - String.length (fst ws) in
    if Nat.leb (String.length v) room
    then ((String.length v, None), ((fst ws ++ v)%string, snd ws ++ [v]))
    else ((room, Some "full"%string), ((fst ws ++ substring 0 room v)%string, snd ws ++ [v]))).

Lemma limited_writer_good cap : good_writer (limited_writer cap) fst snd.
Proof.
  intros [a lg] v n err ws' H. unfold limited_writer in H. cbn in H.
  destruct (Nat.leb_spec (String.length v) (cap - String.length a)); inversion H; subst; cbn.
  - rewrite substring_0_full. auto.
  - repeat split; [lia|discriminate].
Qed.

Lemma C06_lemma (p : token -> bool) (s : TokenStream) :
  (forall l, Yields s l -> Yields (Where p s) (filter p l)) /\
  (forall l e, Fails s l e -> Fails (Where p s) (filter p l) e) /\
  (forall l t s1, Pulls s (l ++ [t]) s1 -> p t = true ->
     exists w, Pulls (Where p s) (filter p (l ++ [t])) w /\ ts_next w = ts_next (Where p s1)).
Proof. repeat split; intros; eauto using Where_yields, Where_fails, Where_lazy. Qed.

Lemma C06_endless : exists l s1, Pulls (forever (tok "a")) (l ++ [tok "a"]) s1.
Proof.
  exists []. eexists. simpl. econstructor; [|constructor]. exists 0. intros m _. reflexivity.
Qed.

Lemma Where_diverges p t : p t = false -> Diverges (fun n => Next n (Where p (forever t))).
Proof.
  intros H m. unfold Next, Where, NewTokenStream. cbn [closure ts_next].
  unfold where_next.
  assert (G : forall k a b, where_loop (stateless p) m k (tt, closure (fun _ (_ : unit) => Ret ((Some t, None), tt)) a b tt) = NoFuel).
  { induction k as [|k IH]; intros a b; [reflexivity|].
    cbn [where_loop]. unfold Next. cbn [closure ts_next bind]. unfold stateless at 1.
    rewrite H. apply IH. }
  unfold forever, NewTokenStream. rewrite G. reflexivity.
Qed.

Lemma C07_lemma s :
  (forall l, Yields s l ->
     Yields (Words s) (filter (fun t => negb (tpunct t) && negb (tspace t)) l) /\
     Yields (Lemmas s) (filter tlemma l) /\
     Yields (Words (Words s)) (filter (fun t => negb (tpunct t) && negb (tspace t)) l) /\
     Yields (Lemmas (Lemmas s)) (filter tlemma l) /\
     exists l', Yields (Words (Lemmas s)) l' /\ Yields (Lemmas (Words s)) l') /\
  (forall l e, Fails s l e ->
     Fails (Words s) (filter (fun t => negb (tpunct t) && negb (tspace t)) l) e /\
     Fails (Lemmas s) (filter tlemma l) e /\
     Fails (Words (Words s)) (filter (fun t => negb (tpunct t) && negb (tspace t)) l) e /\
     Fails (Lemmas (Lemmas s)) (filter tlemma l) e /\
     exists l', Fails (Words (Lemmas s)) l' e /\ Fails (Lemmas (Words s)) l' e).
Proof.
  change (fun t => negb (tpunct t) && negb (tspace t)) with is_word. unfold Words, Lemmas. split.
  - intros l Y. split; [now apply Where_yields|]. split; [now apply Where_yields|].
    split; [rewrite <- filter_idem; now do 2 apply Where_yields|].
    split; [rewrite <- filter_idem; now do 2 apply Where_yields|].
    exists (filter is_word (filter tlemma l)). split; [now do 2 apply Where_yields|].
    rewrite filter_comm. now do 2 apply Where_yields.
  - intros l e Y. split; [now apply Where_fails|]. split; [now apply Where_fails|].
    split; [rewrite <- filter_idem; now do 2 apply Where_fails|].
    split; [rewrite <- filter_idem; now do 2 apply Where_fails|].
    exists (filter is_word (filter tlemma l)). split; [now do 2 apply Where_fails|].
    rewrite filter_comm. now do 2 apply Where_fails.
Qed.

Lemma C08_lemma s :
  (forall l, Yields s l -> exists l', Yields (Distinct s) l' /\ Yields (Distinct (Distinct s)) l' /\
     Subseq l' l /\ NoDup (map tvalue l') /\
     (forall v, In v (map tvalue l') <-> In v (map tvalue l)) /\
     (forall t, In t l' -> exists a b, l = a ++ t :: b /\ Fresh t a)) /\
  (forall l e, Fails s l e -> exists l', Fails (Distinct s) l' e /\ Fails (Distinct (Distinct s)) l' e /\
     Subseq l' l /\ NoDup (map tvalue l') /\
     (forall v, In v (map tvalue l') <-> In v (map tvalue l)) /\
     (forall t, In t l' -> exists a b, l = a ++ t :: b /\ Fresh t a)).
Proof.
  split.
  - intros l Y. exists (first_occurrences [] l). split; [now apply Distinct_yields|].
    split; [rewrite <- first_occ_idem; now do 2 apply Distinct_yields|]. apply first_occ_post.
  - intros l e Y. exists (first_occurrences [] l). split; [now apply Distinct_fails|].
    split; [rewrite <- first_occ_idem; now do 2 apply Distinct_fails|]. apply first_occ_post.
Qed.

Lemma C09_lemma (s : TokenStream) :
  ApplyFilters [] s = s /\
  (forall f fs, ApplyFilters (f :: fs) s = ApplyFilters fs (f s)) /\
  (forall f fs, ApplyFilters (fs ++ [f]) s = f (ApplyFilters fs s)) /\
  (forall fs gs, ApplyFilters (fs ++ gs) s = ApplyFilters gs (ApplyFilters fs s)).
Proof.
  unfold ApplyFilters. repeat split; intros; rewrite ?fold_left_app; reflexivity.
Qed.

(** ** C05 for any writer *)

Lemma writeto_any w s l e s' : Emits s l e s' -> forall ws n0, exists n r ws' s2, writes w ws (map tvalue l) n r ws' /\
  Returns2 (fun fuel k => writeto_loop w fuel k n0 ws s) ((n0 + n, match r with Some we => Some we | None => e end), (ws', s2)).
Proof.
  induction 1 as [s s' N|s o e s' N|s t s1 l e s2 N E IH]; intros ws n0.
  - destruct (Scan_eof _ _ N) as [m Hm]. exists 0, None, ws, (set_fields (None, None) s'). split; [constructor|].
    rewrite Nat.add_0_r. eapply (Returns2_step _ _ _ m); [|apply Returns2_const]. intros fuel k Hf. simpl. rewrite Hm by lia. reflexivity.
  - destruct (Scan_err _ _ _ _ N) as [m Hm]. exists 0, None, ws, (set_fields (o, Some e) s'). split; [constructor|].
    rewrite Nat.add_0_r. eapply (Returns2_step _ _ _ m); [|apply Returns2_const]. intros fuel k Hf. simpl. rewrite Hm by lia. reflexivity.
  - destruct (Scan_token _ _ _ N) as [m Hm]. destruct (wwrite w ws (tvalue t)) as [[n1 [we|]] ws1] eqn:W.
    + exists n1, (Some we), ws1, (set_fields (Some t, None) s1). split; [apply Writes_error, W|].
      eapply (Returns2_step _ _ _ m); [|apply Returns2_const]. intros fuel k Hf. simpl. rewrite Hm by lia. simpl. rewrite W. reflexivity.
    + destruct (IH ws1 (n0 + n1)) as (n & r & ws' & s3 & P & R). exists (n1 + n), r, ws', s3. split; [eapply Writes_more; eauto|].
      rewrite Nat.add_assoc. eapply (Returns2_step _ _ _ m); [|exact R].
      intros fuel k Hf. simpl. rewrite Hm by lia. simpl. rewrite W. destruct k; reflexivity.
Qed.

Lemma C05_any_lemma w s l e s' ws : Emits s l e s' -> exists n r ws' s2, writes w ws (map tvalue l) n r ws' /\
  Returns (fun fuel => WriteTo w fuel ws s) ((n, match r with Some we => Some we | None => e end), (ws', s2)).
Proof.
  intros E. destruct (writeto_any w _ _ _ _ E ws 0) as (n & r & ws' & s2 & P & R). exists n, r, ws', s2. split; [exact P|]. exact (Returns2_diag _ _ R).
Qed.
