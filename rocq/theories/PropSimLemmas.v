(** * PropSimLemmas: proofs for C89. *)

From Verif Require Import Base Utf8 Unicode Token Stream StreamSpec StreamProofs Queue Tokenizer Filters Ascii Trie Synonyms Cli SimSpec.

(* ------------------------------------------------------------------ *)
(** ** Related computations *)

Definition Rel {A B} (R : A -> B -> Prop) (f : nat -> outcome A) (g : nat -> outcome B) : Prop :=
  (forall n a, f n = Ret a -> exists b, R a b /\ Returns g b) /\ (forall n, f n = Panic -> Panics g).

Lemma Rel_ret {A B} (R : A -> B -> Prop) a b : R a b -> Rel R (fun _ => Ret a) (fun _ => Ret b).
Proof. intros H. split; [intros n x [= <-]; exists b; split; [exact H|apply Returns_ret]|discriminate]. Qed.

Lemma Rel_panic {A B} (R : A -> B -> Prop) : Rel R (fun _ => Panic) (fun _ => Panic).
Proof. split; [discriminate|]. intros _ _. exists 0. reflexivity. Qed.

Lemma Panics_bind1 {A B} (f : nat -> outcome A) (g : A -> nat -> outcome B) : Panics f -> Panics (fun n => bind (f n) (fun x => g x n)).
Proof. intros [n H]. exists n. intros m L. rewrite H by exact L. reflexivity. Qed.
Lemma Panics_bind2 {A B} (f : nat -> outcome A) (g : A -> nat -> outcome B) a :
  Returns f a -> Panics (g a) -> Panics (fun n => bind (f n) (fun x => g x n)).
Proof. intros [n H] [m G]. exists (Nat.max n m). intros k L. rewrite H by lia. cbn. apply G. lia. Qed.

Lemma Rel_bind {A B C D} (R : A -> B -> Prop) (S : C -> D -> Prop) f g (k : A -> nat -> outcome C) (h : B -> nat -> outcome D) :
  Rel R f g -> (forall a b, R a b -> Rel S (k a) (h b)) ->
  Rel S (fun n => bind (f n) (fun x => k x n)) (fun n => bind (g n) (fun x => h x n)).
Proof.
  intros [F1 F2] K. split.
  - intros n c E. destruct (f n) as [a| |] eqn:Ef; try discriminate. cbn in E. destruct (F1 _ _ Ef) as (b & Rab & G).
    destruct (proj1 (K a b Rab) _ _ E) as (d & Scd & H). exists d. split; [exact Scd|]. exact (Returns_bind _ _ _ _ G H).
  - intros n E. destruct (f n) as [a| |] eqn:Ef; try discriminate.
    + cbn in E. destruct (F1 _ _ Ef) as (b & Rab & G). exact (Panics_bind2 _ _ _ G (proj2 (K a b Rab) _ E)).
    + exact (Panics_bind1 _ _ (F2 _ Ef)).
Qed.

Lemma Rel_ext {A B} (R : A -> B -> Prop) f f' g g' : (forall n, f n = f' n) -> (forall n, g n = g' n) -> Rel R f' g' -> Rel R f g.
Proof.
  intros E1 E2 [H1 H2]. split.
  - intros n a E. rewrite E1 in E. destruct (H1 _ _ E) as (b & Rb & G). exists b. split; [exact Rb|]. exact (Returns_ext _ _ _ E2 G).
  - intros n E. rewrite E1 in E. destruct (H2 _ E) as [m H]. exists m. intros k L. rewrite E2. auto.
Qed.

Lemma Rel_weaken {A B} (R S : A -> B -> Prop) f g : (forall a b, R a b -> S a b) -> Rel R f g -> Rel S f g.
Proof. intros I [H1 H2]. split; [|exact H2]. intros n a E. destruct (H1 _ _ E) as (b & Rb & G). eauto. Qed.

(** Loops. *)
Section Iter.
Context {X A : Type}.
Fixpoint iter (step : nat -> X -> outcome (A + X)) (fuel k : nat) (x : X) : outcome A :=
  match k with
  | O => NoFuel
  | S k' => do y <- step fuel x; match y with inl a => Ret a | inr x' => iter step fuel k' x' end
  end.
End Iter.

Inductive SumR {A B X Y} (S : A -> B -> Prop) (R : X -> Y -> Prop) : A + X -> B + Y -> Prop :=
| SumR_l a b : S a b -> SumR S R (inl a) (inl b)
| SumR_r x y : R x y -> SumR S R (inr x) (inr y).

Lemma Rel_iter {X Y A B} (R : X -> Y -> Prop) (S : A -> B -> Prop) step step' :
  (forall x y, R x y -> Rel (SumR S R) (fun n => step n x) (fun n => step' n y)) ->
  forall x y, R x y -> Rel S (fun n => iter step n n x) (fun n => iter step' n n y).
Proof.
  intros H.
  assert (G : forall n k x y, R x y ->
    (forall a, iter step n k x = Ret a -> exists b, S a b /\ exists N, forall m j, N <= m -> k <= j -> iter step' m j y = Ret b) /\
    (iter step n k x = Panic -> exists N, forall m j, N <= m -> k <= j -> iter step' m j y = Panic)).
  { intros n. induction k as [|k IH]; intros x y Rxy; [split; discriminate|]. destruct (H x y Rxy) as [H1 H2]. cbn [iter]. split.
    - intros a E. destruct (step n x) as [[a'|x']| |] eqn:Es; try discriminate; cbn [bind] in E.
      + injection E as ->. destruct (H1 _ _ Es) as (b & Q & [N Rn]). inversion Q; subst. exists b0. split; [assumption|].
        exists N. intros m [|j] L Lk; [lia|]. cbn [iter]. rewrite Rn by exact L. reflexivity.
      + destruct (H1 _ _ Es) as (b & Q & [N Rn]). inversion Q; subst. destruct (proj1 (IH x' y0 ltac:(assumption)) _ E) as (b & Sb & N2 & G2).
        exists b. split; [exact Sb|]. exists (Nat.max N N2). intros m [|j] L Lk; [lia|]. cbn [iter]. rewrite Rn by lia. cbn [bind]. apply G2; lia.
    - intros E. destruct (step n x) as [[a'|x']| |] eqn:Es; try discriminate; cbn [bind] in E.
      + destruct (H1 _ _ Es) as (b & Q & [N Rn]). inversion Q; subst. destruct (proj2 (IH x' y0 ltac:(assumption)) E) as (N2 & G2).
        exists (Nat.max N N2). intros m [|j] L Lk; [lia|]. cbn [iter]. rewrite Rn by lia. cbn [bind]. apply G2; lia.
      + destruct (H2 _ Es) as [N Rn]. exists N. intros m [|j] L Lk; [lia|]. cbn [iter]. rewrite Rn by exact L. reflexivity. }
  intros x y Rxy. split.
  - intros n a E. destruct (proj1 (G n n x y Rxy) _ E) as (b & Sb & N & H'). exists b. split; [exact Sb|]. exists (Nat.max N n). intros m L. apply H'; lia.
  - intros n E. destruct (proj2 (G n n x y Rxy) E) as (N & H'). exists (Nat.max N n). intros m L. apply H'; lia.
Qed.

Ltac fin := repeat match goal with
  | |- Follows _ _ => assumption
  | |- _ /\ _ => split
  | |- _ = _ => first [reflexivity|congruence|cbn; congruence]
  | |- _ => progress hnf
  end.

(* ------------------------------------------------------------------ *)
(** ** Streams *)

(** Results with streams: same result, following streams. *)
Definition ResR {X Y} (R : X -> Y -> Prop) (a : result * X) (b : result * Y) : Prop := fst a = fst b /\ R (snd a) (snd b).

Lemma Follows_Rel s1 s2 : Follows s1 s2 -> Rel (ResR Follows) (fun n => Next n s1) (fun n => Next n s2).
Proof.
  intros [H1 H2]. split; [|exact H2]. intros n [r s1'] E. destruct (H1 _ _ _ E) as (s2' & N & F). exists (r, s2'). split; [split; [reflexivity|exact F]|exact N].
Qed.

(** The stored token and error do not matter for Next. *)
Lemma Follows_fields s1 s2 t1 e1 t2 e2 : Follows s1 s2 -> Follows (TS t1 e1 (ts_next s1)) (TS t2 e2 (ts_next s2)).
Proof. intros [H1 H2]. constructor; [exact H1|exact H2]. Qed.

Lemma Follows_closure {X Y} (step : nat -> X -> outcome (result * X)) (step' : nat -> Y -> outcome (result * Y)) (R : X -> Y -> Prop) :
  (forall x y, R x y -> Rel (ResR R) (fun n => step n x) (fun n => step' n y)) ->
  forall x y t1 e1 t2 e2, R x y -> Follows (closure step t1 e1 x) (closure step' t2 e2 y).
Proof.
  intros H. cofix CH. intros x y t1 e1 t2 e2 Rxy. destruct (H x y Rxy) as [H1 H2]. constructor.
  - intros n r s1' E. unfold Next in E. cbn [ts_next closure] in E. destruct (step n x) as [[r0 x']| |] eqn:Es; try discriminate.
    injection E as <- <-. destruct (H1 _ _ Es) as ([r' y'] & [Er Rx] & St). cbn [fst snd] in Er, Rx. subst r'.
    exists (closure step' (fst r0) (snd r0) y'). split; [exact (Nexts_closure step' t2 e2 y r0 y' St)|]. apply CH. exact Rx.
  - intros n E. unfold Next in E. cbn [ts_next closure] in E. destruct (step n x) as [[r0 x']| |] eqn:Es; try discriminate.
    destruct (H2 _ Es) as [N HN]. exists N. intros m L. unfold Next. cbn [ts_next closure]. rewrite HN by exact L. reflexivity.
Qed.

Lemma Follows_new {X Y} (step : nat -> X -> outcome (result * X)) (step' : nat -> Y -> outcome (result * Y)) (R : X -> Y -> Prop) x y :
  (forall x y, R x y -> Rel (ResR R) (fun n => step n x) (fun n => step' n y)) -> R x y ->
  Follows (NewTokenStream step x) (NewTokenStream step' y).
Proof. intros H Rxy. exact (Follows_closure step step' R H x y None None None None Rxy). Qed.

(** Scan *)
Definition ScanR (a b : bool * TokenStream) : Prop :=
  fst a = fst b /\ Token (snd a) = Token (snd b) /\ Err (snd a) = Err (snd b) /\ Follows (snd a) (snd b).
Lemma Rel_Scan s1 s2 : Follows s1 s2 -> Rel ScanR (fun n => Scan n s1) (fun n => Scan n s2).
Proof.
  intros F. unfold Scan. apply (Rel_bind (ResR Follows)); [apply Follows_Rel, F|]. intros [r s1'] [r' s2'] [E G]. cbn [fst snd] in E, G. subst r'.
  apply Rel_ret. unfold ScanR. cbn [fst snd set_fields ts_token ts_err Token Err]. split; [reflexivity|]. split; [reflexivity|]. split; [reflexivity|].
  exact (Follows_fields _ _ _ _ _ _ G).
Qed.

(** [for stream.Scan()] *)
Lemma scan_loop_iter {A} (body : A -> token -> A) fuel k : forall acc s, scan_loop body fuel k acc s =
  iter (fun fuel (x : A * TokenStream) => do (ok, s') <- Scan fuel (snd x);
    if (ok : bool) then match Token s' with Some t => Ret (inr (body (fst x) t, s')) | None => Panic end else Ret (inl (fst x, s'))) fuel k (acc, s).
Proof.
  induction k as [|k IH]; intros acc s; [reflexivity|]. cbn [scan_loop iter fst snd].
  destruct (Scan fuel s) as [[ok s']| |]; cbn [bind]; try reflexivity. destruct ok; cbn [bind]; [|reflexivity].
  destruct (Token s') as [t|]; cbn [bind]; [apply IH|reflexivity].
Qed.

Definition EndR {A} (a b : A * TokenStream) : Prop :=
  fst a = fst b /\ Token (snd a) = Token (snd b) /\ Err (snd a) = Err (snd b) /\ Follows (snd a) (snd b).

Lemma Rel_scan_loop {A} (body : A -> token -> A) acc s1 s2 : Follows s1 s2 ->
  Rel EndR (fun n => scan_loop body n n acc s1) (fun n => scan_loop body n n acc s2).
Proof.
  intros F. eapply Rel_ext; [intros n; apply scan_loop_iter|intros n; apply scan_loop_iter|].
  apply (Rel_iter (fun x y => fst x = fst y /\ Follows (snd x) (snd y))); [|split; [reflexivity|exact F]].
  intros [a s] [a' s'] [E G]. cbn [fst snd] in *. subst a'. apply (Rel_bind ScanR); [apply Rel_Scan, G|].
  intros [ok t1] [ok' t2] (E1 & E2 & E3 & G'). cbn [fst snd] in *. subst ok'. destruct ok.
  - rewrite E2. destruct (Token t2); [|apply Rel_panic]. apply Rel_ret. apply SumR_r. split; [reflexivity|exact G'].
  - apply Rel_ret. apply SumR_l. unfold EndR. cbn [fst snd]. auto.
Qed.

Lemma Rel_ToSlice s1 s2 : Follows s1 s2 -> Rel (fun a b => fst a = fst b /\ Follows (snd a) (snd b)) (fun n => ToSlice n s1) (fun n => ToSlice n s2).
Proof.
  intros F. unfold ToSlice. apply (Rel_bind EndR); [apply Rel_scan_loop, F|]. intros [l t1] [l' t2] (E1 & _ & E3 & G). cbn [fst snd] in *. subst l'.
  rewrite E3. destruct (Err t2); apply Rel_ret; split; auto.
Qed.
Lemma Rel_String s1 s2 : Follows s1 s2 -> Rel (fun a b => fst a = fst b /\ Follows (snd a) (snd b)) (fun n => StreamString n s1) (fun n => StreamString n s2).
Proof.
  intros F. unfold StreamString. apply (Rel_bind EndR); [apply Rel_scan_loop, F|]. intros [l t1] [l' t2] (E1 & _ & E3 & G). cbn [fst snd] in *. subst l'.
  rewrite E3. destruct (Err t2); apply Rel_ret; split; auto.
Qed.
Lemma Rel_Count s1 s2 : Follows s1 s2 -> Rel (fun a b => fst a = fst b /\ Follows (snd a) (snd b)) (fun n => Count n s1) (fun n => Count n s2).
Proof.
  intros F. unfold Count. apply (Rel_bind EndR); [apply Rel_scan_loop, F|]. intros [l t1] [l' t2] (E1 & _ & E3 & G). cbn [fst snd] in *. subst l'.
  rewrite E3. apply Rel_ret; split; auto.
Qed.

Lemma writeto_iter w fuel k : forall written ws s, writeto_loop w fuel k written ws s =
  iter (fun fuel (x : nat * wstate w * TokenStream) => let '(written, ws, s) := x in do (ok, s') <- Scan fuel s;
    if (ok : bool) then match Token s' with
      | Some t => let '((n, err), ws') := wwrite w ws (tvalue t) in
          match err with Some e => Ret (inl ((written + n, Some e), (ws', s'))) | None => Ret (inr (written + n, ws', s')) end
      | None => Panic end else Ret (inl ((written, Err s'), (ws, s')))) fuel k (written, ws, s).
Proof.
  induction k as [|k IH]; intros written ws s; [reflexivity|]. cbn [writeto_loop iter].
  destruct (Scan fuel s) as [[ok s']| |]; cbn [bind]; try reflexivity. destruct ok; cbn [bind]; [|reflexivity].
  destruct (Token s') as [t|]; cbn [bind]; [|reflexivity]. destruct (wwrite w ws (tvalue t)) as [[n err] ws']. destruct err; cbn [bind]; [reflexivity|apply IH].
Qed.
Lemma Rel_WriteTo w ws s1 s2 : Follows s1 s2 ->
  Rel (fun a b => fst a = fst b /\ fst (snd a) = fst (snd b) /\ Follows (snd (snd a)) (snd (snd b))) (fun n => WriteTo w n ws s1) (fun n => WriteTo w n ws s2).
Proof.
  intros F. unfold WriteTo. eapply Rel_ext; [intros n; apply writeto_iter|intros n; apply writeto_iter|].
  apply (Rel_iter (fun x y => fst x = fst y /\ Follows (snd x) (snd y))); [|split; [reflexivity|exact F]].
  intros [[wr a] s] [[wr' a'] s'] [E G]. cbn [fst snd] in *. injection E as <- <-. apply (Rel_bind ScanR); [apply Rel_Scan, G|].
  intros [ok t1] [ok' t2] (E1 & E2 & E3 & G'). cbn [fst snd] in *. subst ok'. destruct ok.
  - rewrite E2. destruct (Token t2) as [t|]; [|apply Rel_panic]. destruct (wwrite w a (tvalue t)) as [[n err] ws'].
    destruct err; apply Rel_ret; constructor; cbn [fst snd]; auto.
  - rewrite E3. apply Rel_ret. constructor; cbn [fst snd]; auto.
Qed.

(* ------------------------------------------------------------------ *)
(** ** Filters *)

Lemma where_iter {P} (pred : P -> token -> bool * P) fuel k : forall x, where_loop pred fuel k x =
  iter (fun fuel (x : P * TokenStream) => let '(p, up) := x in do (r, up') <- Next fuel up;
    match r with
    | (_, Some e) => Ret (inl ((None, Some e), (p, up')))
    | (None, None) => Ret (inl ((None, None), (p, up')))
    | (Some t, None) => let '(b, p') := pred p t in if b then Ret (inl ((Some t, None), (p', up'))) else Ret (inr (p', up'))
    end) fuel k x.
Proof.
  induction k as [|k IH]; intros [p up]; [reflexivity|]. cbn [where_loop iter].
  destruct (Next fuel up) as [[[o e] up']| |]; cbn [bind]; try reflexivity. destruct e; cbn [bind]; [destruct o; reflexivity|]. destruct o as [t|]; cbn [bind]; [|reflexivity].
  destruct (pred p t) as [b p']. destruct b; cbn [bind]; [reflexivity|apply IH].
Qed.

Definition PairR {P} (x y : P * TokenStream) : Prop := fst x = fst y /\ Follows (snd x) (snd y).

Lemma Rel_where {P} (pred : P -> token -> bool * P) x y : PairR x y -> Rel (ResR PairR) (fun n => where_next pred n x) (fun n => where_next pred n y).
Proof.
  intros F. unfold where_next. eapply Rel_ext; [intros n; apply where_iter|intros n; apply where_iter|].
  apply (Rel_iter PairR); [|exact F]. clear x y F.
  intros [p s] [p' s'] [E G]. cbn [fst snd] in *. subst p'. apply (Rel_bind (ResR Follows)); [apply Follows_Rel, G|].
  intros [[o e] t1] [r t2] [E G']. cbn [fst snd] in *. subst r. destruct e; [destruct o; apply Rel_ret; constructor; fin|].
  destruct o as [t|]; [|apply Rel_ret; constructor; fin]. destruct (pred p t) as [b p']. destruct b; apply Rel_ret; constructor; fin.
Qed.

Lemma stop_iter U inc ic fuel k : forall s, stop_loop U inc ic fuel k s =
  iter (fun fuel (up : TokenStream) => do (r, up') <- Next fuel up;
    match r with
    | (_, Some e) => Ret (inl ((None, Some e), up'))
    | (None, None) => Ret (inl ((None, None), up'))
    | (Some t, None) =>
      let key := if (ic : bool) then strings_ToLower U (tvalue t) else tvalue t in
      if smem key inc then Ret (inr up') else Ret (inl ((Some t, None), up'))
    end) fuel k s.
Proof.
  induction k as [|k IH]; intros up; [reflexivity|]. cbn [stop_loop iter].
  destruct (Next fuel up) as [[[o e] up']| |]; cbn [bind]; try reflexivity. destruct e; cbn [bind]; [destruct o; reflexivity|]. destruct o as [t|]; cbn [bind]; [|reflexivity].
  cbv zeta. destruct (smem _ inc); cbn [bind]; [apply IH|reflexivity].
Qed.
Lemma Rel_stop U inc ic x y : Follows x y -> Rel (ResR Follows) (fun n => stop_loop U inc ic n n x) (fun n => stop_loop U inc ic n n y).
Proof.
  intros F. eapply Rel_ext; [intros n; apply stop_iter|intros n; apply stop_iter|].
  apply (Rel_iter Follows); [|exact F]. clear x y F.
  intros s s' G. apply (Rel_bind (ResR Follows)); [apply Follows_Rel, G|].
  intros [[o e] t1] [r t2] [E G']. cbn [fst snd] in *. subst r. destruct e; [destruct o; apply Rel_ret; constructor; fin|].
  destruct o as [t|]; [|apply Rel_ret; constructor; fin]. cbv zeta. destruct (smem _ inc); apply Rel_ret; constructor; [exact G'|split; auto].
Qed.

Lemma Rel_const {A B} (R : A -> B -> Prop) (a : outcome A) (b : outcome B) :
  match a, b with Ret x, Ret y => R x y | Panic, Panic => True | NoFuel, _ => True | _, _ => False end -> Rel R (fun _ => a) (fun _ => b).
Proof.
  destruct a, b; cbn; intros H; try (now exfalso); try (apply Rel_ret; assumption); try apply Rel_panic; split; discriminate.
Qed.

Lemma Rel_mapper fs x y : Follows x y -> Rel (ResR Follows) (fun n => mapper_next fs n x) (fun n => mapper_next fs n y).
Proof.
  intros F. unfold mapper_next. apply (Rel_bind (ResR Follows)); [apply Follows_Rel, F|].
  intros [[o e] t1] [r t2] [E G']. cbn [fst snd] in *. subst r. destruct e; [destruct o; apply Rel_ret; split; auto|].
  destruct o as [t|]; [|apply Rel_ret; split; auto].
  apply (Rel_const _ (do t' <- apply_funcs fs (Some t); Ret ((t', None), t1)) (do t' <- apply_funcs fs (Some t); Ret ((t', None), t2))).
  destruct (apply_funcs fs (Some t)); cbn [bind]; auto. split; auto.
Qed.

(** A tokenizer of a given text. *)
Lemma Rel_tokenizer U x : Rel (ResR eq) (fun n => tokenizer_next U n x) (fun n => tokenizer_next U n x).
Proof. unfold tokenizer_next. destruct (sc_Scan x) as [[t sc]|]; [|destruct (serr x)]; apply Rel_ret; split; reflexivity. Qed.
Lemma Follows_Tokenize U scan r : Follows (Tokenize U scan r) (Tokenize U scan r).
Proof. unfold Tokenize. apply (Follows_new _ _ eq); [|reflexivity]. intros x y ->. apply Rel_tokenizer. Qed.

Lemma Rel_try U scan table out t ic : Rel eq (fun n => tryExpansion U scan table n out t ic) (fun n => tryExpansion U scan table n out t ic).
Proof.
  unfold tryExpansion. destruct (assoc _ table) as [ex|]; [|apply Rel_ret; reflexivity].
  eapply Rel_bind; [apply Rel_ToSlice, Follows_Tokenize|]. intros [[l e] s] [[l' e'] s'] [E _]. cbn [fst] in E. injection E as <- <-.
  destruct e; apply Rel_ret; reflexivity.
Qed.

Definition CR (x y : cstate) : Prop := c_out x = c_out y /\ Follows (c_in x) (c_in y).
Lemma Rel_pop {A B} (R : A -> B -> Prop) q (k : token * queue -> outcome A) (h : token * queue -> outcome B) :
  (forall t q', Rel R (fun _ => k (t, q')) (fun _ => h (t, q'))) ->
  Rel R (fun _ => do x <- q_pop q; k x) (fun _ => do x <- q_pop q; h x).
Proof.
  intros H. apply (Rel_bind eq (R) (fun _ => q_pop q) (fun _ => q_pop q) (fun x _ => k x) (fun x _ => h x)).
  - apply Rel_const. destruct (q_pop q); auto.
  - intros [t q'] b <-. apply H.
Qed.

Lemma Rel_contractions U scan table x y : CR x y -> Rel (ResR CR) (fun n => contractions_next U scan table n x) (fun n => contractions_next U scan table n y).
Proof.
  intros [E F]. unfold contractions_next. rewrite E. destruct (q_any (c_out y)).
  - apply Rel_pop. intros t q'. apply Rel_ret. split; [reflexivity|]. split; [reflexivity|exact F].
  - apply (Rel_bind (ResR Follows)); [apply Follows_Rel, F|].
    intros [[o e] t1] [r t2] [Er G]. cbn [fst snd] in *. subst r. destruct e; [destruct o; apply Rel_ret; fin|].
    destruct o as [t|]; [|apply Rel_ret; fin].
    apply (Rel_bind eq); [apply Rel_try|]. intros [[found err] out1] b <-. destruct err; [apply Rel_ret; fin|].
    apply (Rel_bind eq).
    + destruct found; [apply Rel_ret; reflexivity|]. apply (Rel_bind eq); [apply Rel_try|]. intros [[f2 err2] out2] b <-. apply Rel_ret. reflexivity.
    + intros [err2 out2] b <-. destruct err2; [apply Rel_ret; fin|]. destruct (q_any out2); [|apply Rel_ret; fin].
      apply Rel_pop. intros t' q'. apply Rel_ret. fin.
Qed.

Definition SR (x y : sstate) : Prop := s_out x = s_out y /\ s_prev x = s_prev y /\ Follows (s_in x) (s_in y).
Lemma Rel_sigil_try U sigil legal x y t : SR x y ->
  Rel (fun a b => fst a = fst b /\ SR (snd a) (snd b)) (fun n => sigil_try U sigil legal n x t) (fun n => sigil_try U sigil legal n y t).
Proof.
  intros (E1 & E2 & F). unfold sigil_try. destruct (negb _); [apply Rel_ret; fin|].
  apply (Rel_bind (ResR Follows)); [apply Follows_Rel, F|].
  intros [[o e] t1] [r t2] [Er G]. cbn [fst snd] in *. subst r. destruct e; [destruct o; apply Rel_ret; fin|].
  destruct o as [look|]; [|apply Rel_ret; fin].
  destruct (legal (tvalue look)); apply Rel_ret; fin.
Qed.
Lemma Rel_sigil U sigil legal x y : SR x y -> Rel (ResR SR) (fun n => sigil_next U sigil legal n x) (fun n => sigil_next U sigil legal n y).
Proof.
  intros (E1 & E2 & F). unfold sigil_next. rewrite E1. destruct (q_any (s_out y)).
  - apply Rel_pop. intros t q'. apply Rel_ret. fin.
  - apply (Rel_bind (ResR Follows)); [apply Follows_Rel, F|].
    intros [[o e] t1] [r t2] [Er G]. cbn [fst snd] in *. subst r. cbv zeta. cbn [s_in s_prev s_out]. rewrite E2. destruct e; [destruct o; apply Rel_ret; fin|].
    destruct o as [t|]; [|apply Rel_ret; fin]. destruct (negb _); [apply Rel_ret; fin|].
    eapply Rel_bind; [apply (Rel_sigil_try U sigil legal); fin|].
    intros [[[ok h] err] st1] [[[ok' h'] err'] st2] [Et (Q1 & Q2 & Q3)]. cbn [fst snd] in *. injection Et as <- <- <-. rewrite Q1.
    destruct err; [destruct ok; apply Rel_ret; fin|]. destruct ok; [|apply Rel_ret; fin].
    destruct (q_any (s_out st2)); apply Rel_ret; fin.
Qed.

(** Synonyms *)
Definition YR (x y : synst) : Prop := y_buf x = y_buf y /\ y_out x = y_out y /\ Follows (y_in x) (y_in y).

Lemma fill_scan_iter fuel k : forall up buf out, fill_scan fuel k up buf out =
  iter (fun fuel (x : TokenStream * queue * queue) => let '(up, buf, out) := x in do (ok, up') <- Scan fuel up;
    if (ok : bool) then match Token up' with
      | Some t => if tspace t || tpunct t then Ret (inr (up', buf, q_push out [t])) else Ret (inl (up', q_push buf [t], out))
      | None => Panic end else Ret (inl (up', buf, out))) fuel k (up, buf, out).
Proof.
  induction k as [|k IH]; intros up buf out; [reflexivity|]. cbn [fill_scan iter].
  destruct (Scan fuel up) as [[ok s']| |]; cbn [bind]; try reflexivity. destruct ok; cbn [bind]; [|reflexivity].
  destruct (Token s') as [t|]; cbn [bind]; [|reflexivity]. destruct (tspace t || tpunct t); cbn [bind]; [apply IH|reflexivity].
Qed.
Definition FR (a b : TokenStream * queue * queue) : Prop :=
  snd a = snd b /\ snd (fst a) = snd (fst b) /\ Err (fst (fst a)) = Err (fst (fst b)) /\ Follows (fst (fst a)) (fst (fst b)).
Lemma Rel_fill_scan x y buf out : Follows x y -> Rel FR (fun n => fill_scan n n x buf out) (fun n => fill_scan n n y buf out).
Proof.
  intros F. eapply Rel_ext; [intros n; apply fill_scan_iter|intros n; apply fill_scan_iter|].
  apply (Rel_iter (fun a b => snd a = snd b /\ snd (fst a) = snd (fst b) /\ Follows (fst (fst a)) (fst (fst b)))); [|fin].
  clear x y buf out F. intros [[s b] o] [[s' b'] o'] (E1 & E2 & G). cbn [fst snd] in *. subst b' o'. apply (Rel_bind ScanR); [apply Rel_Scan, G|].
  intros [ok t1] [ok' t2] (Q1 & Q2 & Q3 & G'). cbn [fst snd] in *. subst ok'. destruct ok.
  - rewrite Q2. destruct (Token t2) as [t|]; [|apply Rel_panic]. destruct (tspace t || tpunct t); apply Rel_ret; constructor; fin.
  - apply Rel_ret. constructor. fin.
Qed.

Definition WR (a b : option error * TokenStream * queue) : Prop := fst (fst a) = fst (fst b) /\ snd a = snd b /\ Follows (snd (fst a)) (snd (fst b)).
Lemma Rel_fill_words mw : forall x y wc buf, Follows x y ->
  Rel WR (fun n => fill_words n n mw wc x buf) (fun n => fill_words n n mw wc y buf).
Proof.
  assert (G : forall n k x y wc buf, Follows x y ->
    (forall a, fill_words n k mw wc x buf = Ret a -> exists b, WR a b /\ exists N, forall m j, N <= m -> k <= j -> fill_words m j mw wc y buf = Ret b) /\
    (fill_words n k mw wc x buf = Panic -> exists N, forall m j, N <= m -> k <= j -> fill_words m j mw wc y buf = Panic)).
  { intros n. induction k as [|k IH]; intros x y wc buf F.
    - cbn [fill_words]. destruct (Nat.ltb wc mw) eqn:L; [split; discriminate|]. split; [|discriminate]. intros a [= <-]. exists (None, y, buf). split; [fin|].
      exists 0. intros m [|j] _ _; cbn [fill_words]; rewrite L; reflexivity.
    - cbn [fill_words]. destruct (Nat.ltb wc mw) eqn:L.
      2:{ split; [|discriminate]. intros a [= <-]. exists (None, y, buf). split; [fin|].
          exists 0. intros m [|j] _ _; cbn [fill_words]; rewrite L; reflexivity. }
      destruct (Follows_Rel _ _ F) as [H1 H2]. destruct (Next n x) as [[[o e] x']| |] eqn:En; cbn [bind].
      + destruct (H1 _ _ En) as ([r y'] & [Er G'] & [N HN]). cbn [fst snd] in Er, G'. subst r.
        assert (U : forall m j, N <= m -> S k <= j -> exists j', k <= j' /\ fill_words m j mw wc y buf =
          match (o, e) with
          | (_, Some e) => Ret (Some e, y', buf)
          | (None, None) => Ret (None, y', buf)
          | (Some t, None) => let buf' := q_push buf [t] in
             if tpunct t then Ret (None, y', buf') else if tspace t then fill_words m j' mw wc y' buf' else fill_words m j' mw (S wc) y' buf'
          end).
        { intros m [|j] Lm Lj; [lia|]. exists j. split; [lia|]. cbn [fill_words]. rewrite L, HN by exact Lm. reflexivity. }
        destruct e as [e|].
        { destruct o; (split; [|discriminate]); intros a [= <-]; exists (Some e, y', buf); (split; [fin|]); exists N; intros m j Lm Lj;
          destruct (U m j Lm Lj) as (j' & _ & ->); reflexivity. }
        destruct o as [t|].
        2:{ split; [|discriminate]. intros a [= <-]. exists (None, y', buf). split; [fin|]. exists N. intros m j Lm Lj.
          destruct (U m j Lm Lj) as (j' & _ & ->). reflexivity. }
        cbv zeta in *. destruct (tpunct t).
        { split; [|discriminate]. intros a [= <-]. exists (None, y', q_push buf [t]). split; [fin|]. exists N. intros m j Lm Lj.
          destruct (U m j Lm Lj) as (j' & _ & ->). reflexivity. }
        destruct (tspace t);
        match goal with |- context [fill_words n k mw ?w x' _] => destruct (IH x' y' w (q_push buf [t]) G') as [I1 I2] end; (split;
          [intros a E; destruct (I1 a E) as (b & Wb & N2 & Q); exists b; split; [exact Wb|]; exists (Nat.max N N2); intros m j Lm Lj;
            destruct (U m j ltac:(lia) Lj) as (j' & Lj' & ->); apply Q; lia
          |intros E; destruct (I2 E) as (N2 & Q); exists (Nat.max N N2); intros m j Lm Lj; destruct (U m j ltac:(lia) Lj) as (j' & Lj' & ->); apply Q; lia]).
      + split; [discriminate|]. intros _. destruct (H2 _ En) as [N HN]. exists N. intros m [|j] Lm Lj; [lia|]. cbn [fill_words]. rewrite L, HN by exact Lm. reflexivity.
      + split; discriminate. }
  intros x y wc buf F. split.
  - intros n a E. destruct (proj1 (G n n x y wc buf F) _ E) as (b & Wb & N & Q). exists b. split; [exact Wb|]. exists (Nat.max N n). intros m L. apply Q; lia.
  - intros n E. destruct (proj2 (G n n x y wc buf F) E) as (N & Q). exists (Nat.max N n). intros m L. apply Q; lia.
Qed.

Definition ER (a b : option error * synst) : Prop := fst a = fst b /\ YR (snd a) (snd b).

Lemma Rel_fill mw x y : YR x y -> Rel ER (fun n => fill n mw x) (fun n => fill n mw y).
Proof.
  intros (E1 & E2 & F). unfold fill. rewrite E1, E2. destruct (lead_loop (y_buf y) (y_out y)) as [d out1].
  apply (Rel_bind eq).
  - apply Rel_const. destruct (q_drop (y_buf y) d); auto.
  - intros buf1 b <-.
    apply (Rel_bind (fun a b : option error * TokenStream * queue * queue => fst (fst (fst a)) = fst (fst (fst b)) /\ snd a = snd b /\ snd (fst a) = snd (fst b) /\
      Follows (snd (fst (fst a))) (snd (fst (fst b))))).
    + destruct (Nat.eqb (q_len buf1) 0).
      * apply (Rel_bind FR); [apply Rel_fill_scan, F|]. intros [[u1 b1] o1] [[u2 b2] o2] (Q1 & Q2 & Q3 & G). cbn [fst snd] in *. subst. apply Rel_ret. fin.
      * apply Rel_ret. fin.
    + intros [[[er u1] b1] o1] [[[er' u2] b2] o2] (Q1 & Q2 & Q3 & G). cbn [fst snd] in *. subst. destruct er'; [apply Rel_ret; fin|].
      apply (Rel_bind WR); [apply Rel_fill_words, G|]. intros [[er u3] b3] [[er' u4] b4] (Q1 & Q2 & G'). cbn [fst snd] in *. subst. apply Rel_ret. fin.
Qed.

Section Syn.
Variable U : unicode.
Lemma syn_loop_iter b fuel k : forall st, syn_loop U b fuel k st =
  iter (fun fuel (st : synst) => do (err, st1) <- fill fuel (b_maxWords b) st;
    match err with
    | Some e => Ret (inl (Some e, st1))
    | None =>
      if Nat.eqb (q_len (y_buf st1)) 0 then Ret (inl (None, st1))
      else match wordrun (b_maxWords b) (y_buf st1) with
        | (Some e, _) => Ret (inl (Some e, st1))
        | (None, run) =>
          if Nat.eqb (length run) 0 then Ret (inl (None, st1))
          else match b_trie b with
            | None => Panic
            | Some tr =>
              let '(found, canonical, consumed) := SearchCanonical U tr run in
              if (found : bool) then
                let out' :=
                  if seqb canonical EmptyString then y_out st1
                  else match NewToken U canonical true with
                       | Some tok => q_push (y_out st1) [tok]
                       | None => y_out st1
                       end in
                do buf' <- q_drop (y_buf st1) consumed;
                Ret (inr (mkSyn (y_in st1) buf' out'))
              else
                do (buf', out') <- q_popto (y_buf st1) (y_out st1);
                Ret (inr (mkSyn (y_in st1) buf' out'))
            end
        end
    end) fuel k st.
Proof.
  induction k as [|k IH]; intros st; [reflexivity|]. cbn [syn_loop iter].
  destruct (fill fuel (b_maxWords b) st) as [[err st1]| |]; cbn [bind]; try reflexivity. destruct err; cbn [bind]; [reflexivity|].
  destruct (Nat.eqb (q_len (y_buf st1)) 0); cbn [bind]; [reflexivity|]. destruct (wordrun (b_maxWords b) (y_buf st1)) as [er run].
  destruct er; cbn [bind]; [reflexivity|]. destruct (Nat.eqb (length run) 0); cbn [bind]; [reflexivity|]. destruct (b_trie b) as [tr|]; cbn [bind]; [|reflexivity].
  destruct (SearchCanonical U tr run) as [[found canonical] consumed]. destruct found.
  - cbv zeta. destruct (q_drop (y_buf st1) consumed); cbn [bind]; try reflexivity. apply IH.
  - destruct (q_popto (y_buf st1) (y_out st1)) as [[buf' out']| |]; cbn [bind]; try reflexivity. apply IH.
Qed.

Lemma Rel_syn_loop b x y : YR x y -> Rel ER (fun n => syn_loop U b n n x) (fun n => syn_loop U b n n y).
Proof.
  intros F. eapply Rel_ext; [intros n; apply syn_loop_iter|intros n; apply syn_loop_iter|].
  apply (Rel_iter YR); [|exact F]. clear x y F.
  intros x y F. apply (Rel_bind ER); [apply Rel_fill, F|]. intros [er x'] [er' y'] [Q (E1 & E2 & G)]. cbn [fst snd] in *. subst er'.
  destruct er; [apply Rel_ret; constructor; fin|]. rewrite E1. destruct (Nat.eqb _ 0); [apply Rel_ret; constructor; fin|].
  destruct (wordrun (b_maxWords b) (y_buf y')) as [er run]. destruct er; [apply Rel_ret; constructor; fin|].
  destruct (Nat.eqb _ 0); [apply Rel_ret; constructor; fin|]. destruct (b_trie b) as [tr|]; [|apply Rel_panic].
  destruct (SearchCanonical U tr run) as [[found canonical] consumed]. rewrite E2. destruct found.
  - cbv zeta. apply Rel_const. destruct (q_drop (y_buf y') consumed); cbn [bind]; auto. constructor. fin.
  - apply Rel_const. destruct (q_popto (y_buf y') (y_out y')) as [[b1 o1]| |]; cbn [bind]; auto. constructor. fin.
Qed.

Lemma Rel_syn err b x y : YR x y -> Rel (ResR YR) (fun n => syn_closure U err b n x) (fun n => syn_closure U err b n y).
Proof.
  intros (E1 & E2 & F). unfold syn_closure. destruct err; [apply Rel_ret; fin|]. unfold syn_next. rewrite E1, E2.
  destruct (negb _); [apply Rel_ret; fin|]. destruct (q_any (y_out y)).
  - apply Rel_pop. intros t q'. apply Rel_ret. fin.
  - apply (Rel_bind ER); [apply Rel_syn_loop; fin|]. intros [er x'] [er' y'] [Q (Q1 & Q2 & G)]. cbn [fst snd] in *. subst er'.
    destruct er; [apply Rel_ret; fin|]. rewrite Q1, Q2. destruct (q_flushto (y_buf y') (y_out y')) as [bf o].
    destruct (q_any o); [|apply Rel_ret; fin]. apply Rel_pop. intros t q'. apply Rel_ret. fin.
Qed.
End Syn.

(* ------------------------------------------------------------------ *)
(** ** C89 *)

Section C89.
Variable U : unicode.
Variable scan : oracle.

Lemma follows_filter F : any_filter U scan F -> forall s1 s2, Follows s1 s2 -> Follows (F s1) (F s2).
Proof.
  assert (W : forall (P : Type) (pred : P -> token -> bool * P) p s1 s2, Follows s1 s2 ->
    Follows (NewTokenStream (where_next pred) (p, s1)) (NewTokenStream (where_next pred) (p, s2))).
  { intros P pred p s1 s2 H. apply (Follows_new _ _ PairR); [apply Rel_where|split; [reflexivity|exact H]]. }
  assert (M : forall fs s1 s2, Follows s1 s2 -> Follows (Mapper fs s1) (Mapper fs s2)).
  { intros fs s1 s2 H. apply (Follows_new _ _ Follows); [apply Rel_mapper|exact H]. }
  assert (G : forall sigil legal s1 s2, Follows s1 s2 -> Follows (Sigil U sigil legal s1) (Sigil U sigil legal s2)).
  { intros sigil legal s1 s2 H. apply (Follows_new _ _ SR); [apply Rel_sigil|fin]. }
  intros [] s1 s2 H; try (apply W, H); try (apply M, H); try (apply G, H).
  - apply (Follows_new _ _ Follows); [apply Rel_stop|exact H].
  - apply (Follows_new _ _ CR); [apply Rel_contractions|split; [reflexivity|exact H]].
  - apply (Follows_new _ _ YR); [apply Rel_syn|fin].
Qed.

Lemma C89_lemma F s1 s2 : any_filter U scan F -> alike s1 s2 -> alike (F s1) (F s2).
Proof. intros A [H1 H2]. split; apply follows_filter; assumption. Qed.

Lemma C89_chain fs : Forall (any_filter U scan) fs -> forall s1 s2, alike s1 s2 -> alike (ApplyFilters fs s1) (ApplyFilters fs s2).
Proof.
  induction 1 as [|F fs A Fs IH]; intros s1 s2 H; [exact H|]. cbn. apply IH. exact (C89_lemma F s1 s2 A H).
Qed.
End C89.

Lemma Rel_Returns {A B} (R : A -> B -> Prop) f g a : Rel R f g -> Returns f a -> exists b, R a b /\ Returns g b.
Proof. intros [H _] [n E]. exact (H n a (E n (le_n _))). Qed.
Lemma Rel_Panics {A B} (R : A -> B -> Prop) f g : Rel R f g -> Panics f -> Panics g.
Proof. intros [_ H] [n E]. exact (H n (E n (le_n _))). Qed.

Lemma Rel_same {A B C} (v : A -> C) (v' : B -> C) R R' f g : Rel R f g -> Rel R' g f ->
  (forall a b, R a b -> v a = v' b) -> (forall b a, R' b a -> v a = v' b) -> same_outcome v v' f g.
Proof.
  intros H1 H2 I1 I2. split.
  - intros c. split.
    + intros (a & Ra & <-). destruct (Rel_Returns _ _ _ _ H1 Ra) as (b & Q & Rb). exists b. split; [exact Rb|]. symmetry. exact (I1 _ _ Q).
    + intros (b & Rb & <-). destruct (Rel_Returns _ _ _ _ H2 Rb) as (a & Q & Ra). exists a. split; [exact Ra|]. exact (I2 _ _ Q).
  - split; [exact (Rel_Panics _ _ _ H1)|exact (Rel_Panics _ _ _ H2)].
Qed.

Lemma C89_consumers s1 s2 : alike s1 s2 ->
  same_outcome fst fst (fun n => ToSlice n s1) (fun n => ToSlice n s2) /\
  same_outcome fst fst (fun n => StreamString n s1) (fun n => StreamString n s2) /\
  same_outcome fst fst (fun n => Count n s1) (fun n => Count n s2) /\
  forall (w : writer) (ws : wstate w),
    same_outcome (fun a => (fst a, fst (snd a))) (fun a => (fst a, fst (snd a))) (fun n => WriteTo w n ws s1) (fun n => WriteTo w n ws s2).
Proof.
  intros [H1 H2]. split; [|split; [|split]].
  - eapply Rel_same; [apply Rel_ToSlice, H1|apply Rel_ToSlice, H2| |]; intros a b [E _]; congruence.
  - eapply Rel_same; [apply Rel_String, H1|apply Rel_String, H2| |]; intros a b [E _]; congruence.
  - eapply Rel_same; [apply Rel_Count, H1|apply Rel_Count, H2| |]; intros a b [E _]; congruence.
  - intros w ws. eapply Rel_same; [apply Rel_WriteTo, H1|apply Rel_WriteTo, H2| |]; intros a b (E & E' & _); congruence.
Qed.
