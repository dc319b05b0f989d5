(** * StreamProofs: lemmas about streams, used by all proofs. *)

From Verif Require Export StringProofs.
From Verif Require Import Base Utf8 Unicode Token Stream StreamSpec.

(* ------------------------------------------------------------------ *)
(** ** Eventually-constant computations *)

Lemma Returns_ret {A} (a : A) : Returns (fun _ => Ret a) a.
Proof. exists 0. reflexivity. Qed.

Lemma Returns_bind {A B} (f : nat -> outcome A) (g : A -> nat -> outcome B) a b :
  Returns f a -> Returns (g a) b -> Returns (fun n => bind (f n) (fun x => g x n)) b.
Proof.
  intros [n Hn] [m Hm]. exists (Nat.max n m). intros k Hk.
  rewrite Hn by lia. simpl. apply Hm. lia.
Qed.

Lemma Returns_ext {A} (f g : nat -> outcome A) a :
  (forall n, f n = g n) -> Returns g a -> Returns f a.
Proof. intros E [n Hn]. exists n. intros m Hm. rewrite E. auto. Qed.

Lemma Returns_ext_ev {A} (f g : nat -> outcome A) a n0 :
  (forall n, n0 <= n -> f n = g n) -> Returns g a -> Returns f a.
Proof.
  intros E [n Hn]. exists (Nat.max n0 n). intros m Hm. rewrite E by lia. apply Hn; lia.
Qed.

Lemma Returns_inj {A} (f : nat -> outcome A) a b : Returns f a -> Returns f b -> a = b.
Proof.
  intros [n Hn] [m Hm]. specialize (Hn (Nat.max n m)). specialize (Hm (Nat.max n m)).
  rewrite Hn in Hm by lia. assert (H := Hm ltac:(lia)). congruence.
Qed.

Lemma Returns_not_panics {A} (f : nat -> outcome A) a : Returns f a -> Panics f -> False.
Proof.
  intros [n Hn] [m Hm]. specialize (Hn (Nat.max n m)). specialize (Hm (Nat.max n m)).
  rewrite Hn in Hm by lia. discriminate Hm; lia.
Qed.

Lemma Returns_not_diverges {A} (f : nat -> outcome A) a : Returns f a -> Diverges f -> False.
Proof. intros [n Hn] H. specialize (Hn n (le_n _)). rewrite H in Hn. discriminate. Qed.

(** A loop with its own counter [k] and fuel [fuel] for the calls in its body. *)
Definition Returns2 {A} (f : nat -> nat -> outcome A) (a : A) : Prop :=
  exists n, forall fuel k, n <= fuel -> n <= k -> f fuel k = Ret a.

Lemma Returns2_diag {A} (f : nat -> nat -> outcome A) a : Returns2 f a -> Returns (fun n => f n n) a.
Proof. intros [n Hn]. exists n. auto. Qed.

Lemma Returns2_inj {A} (f : nat -> nat -> outcome A) a b : Returns2 f a -> Returns2 f b -> a = b.
Proof. intros H1 H2. eapply Returns_inj; apply Returns2_diag; eassumption. Qed.

(** One iteration: for enough fuel, [f fuel (S k) = g fuel k]. *)
Lemma Returns2_step {A} (f g : nat -> nat -> outcome A) a n0 :
  (forall fuel k, n0 <= fuel -> f fuel (S k) = g fuel k) -> Returns2 g a -> Returns2 f a.
Proof.
  intros E [n Hn]. exists (S (Nat.max n0 n)). intros fuel [|k] Hf Hk; [lia|].
  rewrite E by lia. apply Hn; lia.
Qed.

Lemma Returns2_const {A} (a : A) : Returns2 (fun _ _ => Ret a) a.
Proof. exists 0. reflexivity. Qed.

(* ------------------------------------------------------------------ *)
(** ** Determinism *)

Lemma Nexts_inj s r1 s1 r2 s2 : Nexts s r1 s1 -> Nexts s r2 s2 -> r1 = r2 /\ s1 = s2.
Proof. intros H1 H2. pose proof (Returns_inj _ _ _ H1 H2). split; congruence. Qed.

Lemma Emits_inj s l1 e1 s1 : Emits s l1 e1 s1 -> forall l2 e2 s2, Emits s l2 e2 s2 ->
  l1 = l2 /\ e1 = e2 /\ s1 = s2.
Proof.
  induction 1; intros l2 e2 s2' H2; inversion H2; subst;
    repeat match goal with
    | A : Nexts ?s _ _, B : Nexts ?s _ _ |- _ =>
        destruct (Nexts_inj _ _ _ _ _ A B); clear B
    end; try congruence.
  - repeat split; congruence.
  - repeat split; congruence.
  - match goal with A : (Some _, None) = (Some _, None) |- _ => inversion A; subst end.
    destruct (IHEmits _ _ _ ltac:(eassumption)) as (-> & -> & ->). auto.
Qed.

Lemma Yields_inj s l1 l2 : Yields s l1 -> Yields s l2 -> l1 = l2.
Proof. intros (s1 & H1 & _) (s2 & H2 & _). apply (Emits_inj _ _ _ _ H1 _ _ _ H2). Qed.

Lemma Fails_inj s l1 e1 l2 e2 : Fails s l1 e1 -> Fails s l2 e2 -> l1 = l2 /\ e1 = e2.
Proof.
  intros (s1 & H1) (s2 & H2). destruct (Emits_inj _ _ _ _ H1 _ _ _ H2) as (A & B & _).
  split; congruence.
Qed.

Lemma Yields_not_Fails s l1 l2 e : Yields s l1 -> Fails s l2 e -> False.
Proof.
  intros (s1 & H1 & _) (s2 & H2). destruct (Emits_inj _ _ _ _ H1 _ _ _ H2) as (_ & B & _).
  discriminate.
Qed.

Lemma Pulls_app s l1 s1 l2 s2 : Pulls s l1 s1 -> Pulls s1 l2 s2 -> Pulls s (l1 ++ l2) s2.
Proof. induction 1; simpl; auto. intros; econstructor; eauto. Qed.

Lemma Pulls_app_inv l1 : forall s l2 s2, Pulls s (l1 ++ l2) s2 ->
  exists s1, Pulls s l1 s1 /\ Pulls s1 l2 s2.
Proof.
  induction l1 as [|t l1 IH]; simpl; intros s l2 s2 H.
  - exists s. split; [constructor|auto].
  - inversion H; subst. destruct (IH _ _ _ ltac:(eassumption)) as (s3 & A & B).
    exists s3. split; auto. econstructor; eauto.
Qed.

Lemma Pulls_Emits s l1 s1 l2 e s2 : Pulls s l1 s1 -> Emits s1 l2 e s2 -> Emits s (l1 ++ l2) e s2.
Proof. induction 1; simpl; auto. intros; econstructor; eauto. Qed.

Lemma Emits_Pulls_inv l1 : forall s l2 e s2, Emits s (l1 ++ l2) e s2 ->
  exists s1, Pulls s l1 s1 /\ Emits s1 l2 e s2.
Proof.
  induction l1 as [|t l1 IH]; simpl; intros s l2 e s2 H.
  - exists s. split; [constructor|auto].
  - inversion H; subst. destruct (IH _ _ _ _ ltac:(eassumption)) as (s3 & A & B).
    exists s3. split; auto. econstructor; eauto.
Qed.

(** Only the closure matters for what a stream delivers, not the stored token and error. *)
Lemma Nexts_fields s s1 r s' : ts_next s = ts_next s1 -> Nexts s r s' -> Nexts s1 r s'.
Proof. unfold Nexts, Next. intros <-. auto. Qed.

Lemma Emits_fields s s1 l e s' : ts_next s = ts_next s1 -> Emits s l e s' -> Emits s1 l e s'.
Proof.
  intros E H. destruct H; [apply Emits_eof|eapply Emits_err|eapply Emits_cons]; eauto using Nexts_fields.
Qed.

Lemma Pulls_fields s s1 t l s' : ts_next s = ts_next s1 -> Pulls s (t :: l) s' -> Pulls s1 (t :: l) s'.
Proof. intros E H. inversion H; subst. econstructor; eauto using Nexts_fields. Qed.

Lemma Quiet_fields s s1 : ts_next s = ts_next s1 -> Quiet s -> Quiet s1.
Proof. intros E [s' H Q]. exists s'; eauto using Nexts_fields. Qed.

Lemma Yields_fields s s1 l : ts_next s = ts_next s1 -> Yields s l -> Yields s1 l.
Proof. intros E (s' & A & Q). exists s'. eauto using Emits_fields. Qed.

Lemma Quiet_Yields s : Quiet s -> Yields s [].
Proof. intros [s' H Q]. exists s'. split; auto. constructor; auto. Qed.

Lemma Yields_cons s t s1 l : Nexts s (Some t, None) s1 -> Yields s1 l -> Yields s (t :: l).
Proof. intros N (s' & A & Q). exists s'. split; auto. econstructor; eauto. Qed.

Lemma Fails_cons s t s1 l e : Nexts s (Some t, None) s1 -> Fails s1 l e -> Fails s (t :: l) e.
Proof. intros N (s' & A). exists s'. econstructor; eauto. Qed.

(* ------------------------------------------------------------------ *)
(** ** Streams made by NewTokenStream *)

Section Closure.
Context {X : Type} (step : nat -> X -> outcome (result * X)).

(** One call of the closure. *)
Definition Steps (x : X) (r : result) (x' : X) : Prop := Returns (fun n => step n x) (r, x').

Lemma Nexts_closure tok err x r x' :
  Steps x r x' -> Nexts (closure step tok err x) r (closure step (fst r) (snd r) x').
Proof.
  intros [n Hn]. exists n. intros m Hm. unfold Next. simpl. rewrite Hn by lia. reflexivity.
Qed.

Lemma closure_ts_next tok err tok' err' x :
  ts_next (closure step tok err x) = ts_next (closure step tok' err' x).
Proof. reflexivity. Qed.

(** Emits / Pulls at the level of captured states. *)
Inductive EmitsX : X -> list token -> option error -> X -> Prop :=
| EX_eof x x' : Steps x (None, None) x' -> EmitsX x [] None x'
| EX_err x o e x' : Steps x (o, Some e) x' -> EmitsX x [] (Some e) x'
| EX_cons x t x1 l e x2 : Steps x (Some t, None) x1 -> EmitsX x1 l e x2 -> EmitsX x (t :: l) e x2.

Inductive PullsX : X -> list token -> X -> Prop :=
| PX_nil x : PullsX x [] x
| PX_cons x t x1 l x2 : Steps x (Some t, None) x1 -> PullsX x1 l x2 -> PullsX x (t :: l) x2.

Lemma EmitsX_Emits x l e x' : EmitsX x l e x' -> forall tok err,
  exists tok' err', Emits (closure step tok err x) l e (closure step tok' err' x').
Proof.
  induction 1; intros tok err.
  - do 2 eexists. apply Emits_eof. apply (Nexts_closure _ _ _ _ _ H).
  - do 2 eexists. eapply Emits_err. apply (Nexts_closure _ _ _ _ _ H).
  - destruct (IHEmitsX (Some t) None) as (tok' & err' & E). exists tok', err'.
    eapply Emits_cons; [apply (Nexts_closure _ _ _ _ _ H)|exact E].
Qed.

Lemma PullsX_Pulls x l x' : PullsX x l x' -> forall tok err,
  exists tok' err', Pulls (closure step tok err x) l (closure step tok' err' x').
Proof.
  induction 1; intros tok err.
  - exists tok, err. constructor.
  - destruct (IHPullsX (Some t) None) as (tok' & err' & E). exists tok', err'.
    econstructor; [apply (Nexts_closure _ _ _ _ _ H)|exact E].
Qed.

Lemma PullsX_app x l1 x1 l2 x2 : PullsX x l1 x1 -> PullsX x1 l2 x2 -> PullsX x (l1 ++ l2) x2.
Proof. induction 1; simpl; auto. intros; econstructor; eauto. Qed.

Lemma PullsX_EmitsX x l1 x1 l2 e x2 : PullsX x l1 x1 -> EmitsX x1 l2 e x2 -> EmitsX x (l1 ++ l2) e x2.
Proof. induction 1; simpl; auto. intros; econstructor; eauto. Qed.

(** If a call in state [x] does what a call in state [y] does, so does everything after. *)
Lemma EmitsX_skip x y l e z :
  (forall r x', Steps y r x' -> Steps x r x') -> EmitsX y l e z -> EmitsX x l e z.
Proof. intros H E. inversion E; subst; econstructor; eauto. Qed.

Lemma PullsX_skip x y t l z :
  (forall r x', Steps y r x' -> Steps x r x') -> PullsX y (t :: l) z -> PullsX x (t :: l) z.
Proof. intros H E. inversion E; subst; econstructor; eauto. Qed.

(** Quietness from an invariant on captured states. *)
Lemma Quiet_closure (Q : X -> Prop) :
  (forall x, Q x -> exists x', Steps x (None, None) x' /\ Q x') ->
  forall tok err x, Q x -> Quiet (closure step tok err x).
Proof.
  intros H. cofix IH. intros tok err x Hx. destruct (H x Hx) as (x' & S & Q').
  exact (Quiet_intro _ _ (Nexts_closure tok err _ _ _ S) (IH _ _ x' Q')).
Qed.

Lemma Yields_closure (Q : X -> Prop) x l x' :
  EmitsX x l None x' ->
  (forall x, Q x -> exists x', Steps x (None, None) x' /\ Q x') -> Q x' ->
  Yields (NewTokenStream step x) l.
Proof.
  intros E H Hq. destruct (EmitsX_Emits _ _ _ _ E None None) as (tok & err & A).
  eexists. split; [exact A|]. eapply Quiet_closure; eauto.
Qed.

Lemma Fails_closure x l e x' : EmitsX x l (Some e) x' -> Fails (NewTokenStream step x) l e.
Proof. intros E. destruct (EmitsX_Emits _ _ _ _ E None None) as (tok & err & A). eexists; exact A. Qed.

End Closure.

(* ------------------------------------------------------------------ *)
(** ** Consumers *)

Lemma Scan_token s t s' :
  Nexts s (Some t, None) s' -> Returns (fun n => Scan n s) (true, set_fields (Some t, None) s').
Proof. intros [n Hn]. exists n. intros m Hm. unfold Scan. rewrite Hn by lia. reflexivity. Qed.

Lemma Scan_eof s s' :
  Nexts s (None, None) s' -> Returns (fun n => Scan n s) (false, set_fields (None, None) s').
Proof. intros [n Hn]. exists n. intros m Hm. unfold Scan. rewrite Hn by lia. reflexivity. Qed.

Lemma Scan_err s o e s' :
  Nexts s (o, Some e) s' -> Returns (fun n => Scan n s) (false, set_fields (o, Some e) s').
Proof.
  intros [n Hn]. exists n. intros m Hm. unfold Scan. rewrite Hn by lia. simpl.
  destruct o; reflexivity.
Qed.

(** The loop [for stream.Scan()] sees exactly the emitted tokens. *)
Lemma scan_loop_emits {A} (body : A -> token -> A) s l e s' :
  Emits s l e s' -> forall acc, exists o,
  Returns2 (fun fuel k => scan_loop body fuel k acc s)
    (fold_left body l acc, set_fields (o, e) s') /\ (e = None -> o = None).
Proof.
  induction 1 as [s s' N|s o e s' N|s t s1 l e s2 N E IH]; intros acc.
  - exists None. split; [|auto]. destruct (Scan_eof _ _ N) as [n Hn].
    apply (Returns2_step _ (fun _ _ => Ret (acc, set_fields (None, None) s')) _ n).
    + intros fuel k Hf. simpl. rewrite Hn by lia. reflexivity.
    + apply Returns2_const.
  - exists o. split; [|discriminate]. destruct (Scan_err _ _ _ _ N) as [n Hn].
    apply (Returns2_step _ (fun _ _ => Ret (acc, set_fields (o, Some e) s')) _ n).
    + intros fuel k Hf. simpl. rewrite Hn by lia. reflexivity.
    + apply Returns2_const.
  - destruct (Scan_token _ _ _ N) as [n Hn]. destruct (IH (body acc t)) as (o & R & Ho).
    exists o. split; [|auto]. simpl.
    eapply (Returns2_step _ _ _ n); [|exact R].
    intros fuel k Hf. simpl. rewrite Hn by lia. simpl.
    destruct k; simpl; reflexivity.
Qed.

Lemma fold_left_snoc {A} (l : list A) : forall acc,
  fold_left (fun l t => l ++ [t]) l acc = acc ++ l.
Proof.
  induction l as [|x l IH]; intros acc; simpl; [now rewrite app_nil_r|].
  rewrite IH, <- app_assoc. reflexivity.
Qed.

Lemma text_app l1 l2 : text (l1 ++ l2) = (text l1 ++ text l2)%string.
Proof. unfold text. rewrite map_app. apply sconcat_app. Qed.

Lemma text_cons t l : text (t :: l) = (tvalue t ++ text l)%string.
Proof. reflexivity. Qed.

Lemma fold_left_text l : forall acc,
  fold_left (fun b t => (b ++ tvalue t)%string) l acc = (acc ++ text l)%string.
Proof.
  induction l as [|t l IH]; intros acc; simpl.
  - now rewrite sapp_nil_r.
  - rewrite IH, sapp_assoc. reflexivity.
Qed.

Lemma fold_left_count {A} (l : list A) : forall n, fold_left (fun n _ => S n) l n = n + length l.
Proof. induction l as [|t l IH]; intros n; simpl; [lia|]. rewrite IH. lia. Qed.

Lemma ToSlice_emits s l e s' : Emits s l e s' ->
  exists s2, ts_next s2 = ts_next s' /\
  Returns (fun n => ToSlice n s) ((match e with None => l | Some _ => [] end, e), s2).
Proof.
  intros E. destruct (scan_loop_emits (fun l t => l ++ [t]) _ _ _ _ E []) as (o & R & Ho).
  exists (set_fields (o, e) s'). split; [reflexivity|].
  destruct (Returns2_diag _ _ R) as [n Hn]. exists n. intros m Hm.
  unfold ToSlice. rewrite Hn by lia. simpl. rewrite fold_left_snoc. destruct e; reflexivity.
Qed.

Lemma StreamString_emits s l e s' : Emits s l e s' ->
  exists s2, ts_next s2 = ts_next s' /\
  Returns (fun n => StreamString n s) ((match e with None => text l | Some _ => EmptyString end, e), s2).
Proof.
  intros E.
  destruct (scan_loop_emits (fun b t => (b ++ tvalue t)%string) _ _ _ _ E EmptyString) as (o & R & Ho).
  exists (set_fields (o, e) s'). split; [reflexivity|].
  destruct (Returns2_diag _ _ R) as [n Hn]. exists n. intros m Hm.
  unfold StreamString. rewrite Hn by lia. simpl. rewrite fold_left_text. destruct e; reflexivity.
Qed.

Lemma Count_emits s l e s' : Emits s l e s' ->
  exists s2, ts_next s2 = ts_next s' /\
  Returns (fun n => Count n s) ((length l, e), s2).
Proof.
  intros E. destruct (scan_loop_emits (fun n (_ : token) => S n) _ _ _ _ E 0) as (o & R & Ho).
  exists (set_fields (o, e) s'). split; [reflexivity|].
  destruct (Returns2_diag _ _ R) as [n Hn]. exists n. intros m Hm.
  unfold Count. rewrite Hn by lia. simpl. rewrite fold_left_count. reflexivity.
Qed.

(* ------------------------------------------------------------------ *)
(** ** Where *)

(** Tokens kept by a stateful predicate, and its final state. *)
Fixpoint keep {P} (pred : P -> token -> bool * P) (p : P) (l : list token) : list token :=
  match l with
  | [] => []
  | t :: l' => let '(b, p') := pred p t in if b then t :: keep pred p' l' else keep pred p' l'
  end.

Fixpoint keep_state {P} (pred : P -> token -> bool * P) (p : P) (l : list token) : P :=
  match l with
  | [] => p
  | t :: l' => keep_state pred (snd (pred p t)) l'
  end.

Section WhereProofs.
Context {P : Type} (pred : P -> token -> bool * P).

Definition WR (x : P * TokenStream) (r : result) (x' : P * TokenStream) :=
  Returns2 (fun fuel k => where_loop pred fuel k x) (r, x').

Lemma WR_Steps x r x' : WR x r x' -> Steps (where_next pred) x r x'.
Proof. apply Returns2_diag. Qed.

Lemma WR_eof p s s' : Nexts s (None, None) s' -> WR (p, s) (None, None) (p, s').
Proof.
  intros [n Hn]. eapply (Returns2_step _ _ _ n); [|apply Returns2_const].
  intros fuel k Hf. simpl. rewrite Hn by lia. reflexivity.
Qed.

Lemma WR_err p s o e s' : Nexts s (o, Some e) s' -> WR (p, s) (None, Some e) (p, s').
Proof.
  intros [n Hn]. eapply (Returns2_step _ _ _ n); [|apply Returns2_const].
  intros fuel k Hf. simpl. rewrite Hn by lia. simpl. destruct o; reflexivity.
Qed.

Lemma WR_keep p p' s t s' : Nexts s (Some t, None) s' -> pred p t = (true, p') ->
  WR (p, s) (Some t, None) (p', s').
Proof.
  intros [n Hn] E. eapply (Returns2_step _ _ _ n); [|apply Returns2_const].
  intros fuel k Hf. simpl. rewrite Hn by lia. simpl. rewrite E. reflexivity.
Qed.

Lemma WR_skip p p' s t s' r x : Nexts s (Some t, None) s' -> pred p t = (false, p') ->
  WR (p', s') r x -> WR (p, s) r x.
Proof.
  intros [n Hn] E. apply (Returns2_step _ _ _ n).
  intros fuel k Hf. simpl. rewrite Hn by lia. simpl. rewrite E. reflexivity.
Qed.

Inductive WEmits : (P * TokenStream) -> list token -> option error -> (P * TokenStream) -> Prop :=
| WE_eof x x' : WR x (None, None) x' -> WEmits x [] None x'
| WE_err x e x' : WR x (None, Some e) x' -> WEmits x [] (Some e) x'
| WE_cons x t x1 l e x2 : WR x (Some t, None) x1 -> WEmits x1 l e x2 -> WEmits x (t :: l) e x2.

Lemma WEmits_EmitsX x l e x' : WEmits x l e x' -> EmitsX (where_next pred) x l e x'.
Proof.
  induction 1; [eapply EX_eof|eapply EX_err|eapply EX_cons]; eauto using WR_Steps.
Qed.

Lemma where_wemits s l e s' : Emits s l e s' ->
  forall p, WEmits (p, s) (keep pred p l) e (keep_state pred p l, s').
Proof.
  induction 1 as [s s' N|s o e s' N|s t s1 l e s2 N E IH]; intros p.
  - apply WE_eof, WR_eof, N.
  - eapply WE_err, WR_err, N.
  - simpl. destruct (pred p t) as [[|] p'] eqn:Ep; simpl.
    + eapply WE_cons; [eapply WR_keep; eauto|apply IH].
    + specialize (IH p'). inversion IH as [x x' R|x e0 x' R|x t0 x1 l0 e0 x2 R R2]; subst.
      * apply WE_eof. eapply WR_skip; eauto.
      * apply WE_err. eapply WR_skip; eauto.
      * eapply WE_cons; [eapply WR_skip; eauto|eauto].
Qed.

Lemma where_quiet : forall x : P * TokenStream, Quiet (snd x) ->
  exists x', Steps (where_next pred) x (None, None) x' /\ Quiet (snd x').
Proof.
  intros [p s] [s' N Q]. exists (p, s'). split; [|exact Q]. apply WR_Steps, WR_eof, N.
Qed.

Lemma where_yields s l p : Yields s l ->
  Yields (NewTokenStream (where_next pred) (p, s)) (keep pred p l).
Proof.
  intros (s' & E & Q). eapply (Yields_closure _ (fun x => Quiet (snd x))).
  - apply WEmits_EmitsX, where_wemits, E.
  - apply where_quiet.
  - exact Q.
Qed.

Lemma where_fails s l e p : Fails s l e ->
  Fails (NewTokenStream (where_next pred) (p, s)) (keep pred p l) e.
Proof.
  intros (s' & E). eapply Fails_closure. apply WEmits_EmitsX, where_wemits, E.
Qed.

(** Laziness: after the token [t] was handed out, the source has been read up to [t]. *)
Lemma where_pulls l : forall s t s1 p, Pulls s (l ++ [t]) s1 ->
  fst (pred (keep_state pred p l) t) = true ->
  PullsX (where_next pred) (p, s) (keep pred p (l ++ [t])) (keep_state pred p (l ++ [t]), s1).
Proof.
  assert (G : forall s t s1 p, Pulls s (l ++ [t]) s1 ->
    fst (pred (keep_state pred p l) t) = true ->
    exists t' l' x, keep pred p (l ++ [t]) = t' :: l' /\ WR (p, s) (Some t', None) x /\
      PullsX (where_next pred) x l' (keep_state pred p (l ++ [t]), s1)).
  { induction l as [|a l IH]; intros s t s1 p H Hp; simpl in *; inversion H; subst.
    - inversion H5; subst. destruct (pred p t) as [b p'] eqn:E; simpl in *; subst.
      do 3 eexists. split; [reflexivity|]. split; [eapply WR_keep; eauto|constructor].
    - destruct (pred p a) as [b p'] eqn:E; simpl in *.
      destruct (IH _ _ _ p' H5 Hp) as (t' & l' & x & K & R & PX). rewrite K.
      destruct b.
      + do 3 eexists. split; [reflexivity|]. split; [eapply WR_keep; eauto|].
        eapply PX_cons; [apply WR_Steps, R|exact PX].
      + do 3 eexists. split; [reflexivity|]. split; [eapply WR_skip; eauto|exact PX]. }
  intros s t s1 p H Hp. destruct (G _ _ _ _ H Hp) as (t' & l' & x & K & R & PX). rewrite K.
  eapply PX_cons; [apply WR_Steps, R|exact PX].
Qed.

End WhereProofs.

Lemma keep_stateless pred l : forall u, keep (stateless pred) u l = filter pred l.
Proof.
  induction l as [|t l IH]; intros u; simpl; [reflexivity|]. destruct (pred t); now rewrite IH.
Qed.

Lemma Where_yields pred s l : Yields s l -> Yields (Where pred s) (filter pred l).
Proof. intros Y. rewrite <- (keep_stateless pred l tt). apply where_yields, Y. Qed.

Lemma Where_fails pred s l e : Fails s l e -> Fails (Where pred s) (filter pred l) e.
Proof. intros Y. rewrite <- (keep_stateless pred l tt). apply where_fails, Y. Qed.

Lemma Where_lazy pred s l t s1 : Pulls s (l ++ [t]) s1 -> pred t = true ->
  exists w, Pulls (Where pred s) (filter pred (l ++ [t])) w /\ ts_next w = ts_next (Where pred s1).
Proof.
  intros H Hp.
  destruct (PullsX_Pulls _ _ _ _
    (where_pulls (stateless pred) l _ _ _ tt H ltac:(simpl; exact Hp)) None None) as (tok & err & A).
  rewrite keep_stateless in A. eexists. split; [exact A|].
  destruct (keep_state (stateless pred) tt (l ++ [t])). reflexivity.
Qed.

(* ------------------------------------------------------------------ *)
(** ** Distinct *)

(** First occurrences, given values already seen. *)
Fixpoint first_occurrences (seen : list string) (l : list token) : list token :=
  match l with
  | [] => []
  | t :: l' => if smem (tvalue t) seen then first_occurrences seen l'
               else t :: first_occurrences (tvalue t :: seen) l'
  end.

Lemma keep_distinct l : forall seen, keep distinct_pred seen l = first_occurrences seen l.
Proof.
  induction l as [|t l IH]; intros seen; simpl; [reflexivity|].
  destruct (smem (tvalue t) seen); simpl; now rewrite IH.
Qed.

Lemma Distinct_yields s l : Yields s l -> Yields (Distinct s) (first_occurrences [] l).
Proof. intros Y. rewrite <- keep_distinct. apply where_yields, Y. Qed.

Lemma Distinct_fails s l e : Fails s l e -> Fails (Distinct s) (first_occurrences [] l) e.
Proof. intros Y. rewrite <- keep_distinct. apply where_fails, Y. Qed.
