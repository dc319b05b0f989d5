(** * PropSharedLemmas: proofs for C83 *)

From Coq Require Import Lia Arith.
From Verif Require AliasSpec.
From Verif Require Import Base Token Stream StreamSpec StreamProofs Shared SharedSpec.

Section Subs.
Variable subs : list ((token -> bool) * nat).
Hypothesis subs_ok : forall i p up, nth_error subs i = Some (p, up) -> up <= i.

Definition nodes (s : TokenStream) : heap := Source s :: map (fun pu => Sub (fst pu) (snd pu)) subs.

Lemma passes_dec t : forall i, passes subs t i \/ ~ passes subs t i.
Proof.
  induction i as [i IH] using (well_founded_induction lt_wf). destruct i as [|i]; [left; constructor|].
  destruct (nth_error subs i) as [[p up]|] eqn:E.
  - destruct (p t) eqn:P.
    + destruct (IH up) as [Y|N].
      * pose proof (subs_ok _ _ _ E). lia.
      * left. econstructor; eassumption.
      * right. intro X. inversion X; subst. rewrite E in *. match goal with H : Some _ = Some _ |- _ => injection H as <- <- end. easy.
    + right. intro X. inversion X; subst. rewrite E in *. match goal with H : Some _ = Some _ |- _ => injection H as <- <- end. congruence.
  - right. intro X. inversion X; subst. congruence.
Qed.

(** The first token in a list that passes. *)
Lemma first_passing i l : Forall (fun x => ~ passes subs x i) l \/
  exists a x b, l = a ++ x :: b /\ Forall (fun x => ~ passes subs x i) a /\ passes subs x i.
Proof.
  induction l as [|y l IH]; [left; constructor|].
  destruct (passes_dec y i) as [Y|N].
  - right. exists [], y, l. now repeat split.
  - destruct IH as [F|(a & x & b & -> & F & Y)].
    + left. now constructor.
    + right. exists (y :: a), x, b. repeat split; try easy. now constructor.
Qed.

Lemma passes_sub t i p up : nth_error subs i = Some (p, up) -> (passes subs t (S i) <-> p t = true /\ passes subs t up).
Proof.
  intro E. split.
  - intro X. inversion X; subst. rewrite E in *. match goal with H : Some _ = Some _ |- _ => injection H as <- <- end. easy.
  - intros [A B]. econstructor; eassumption.
Qed.

Lemma call_lemma : forall i, i <= length subs -> forall s skipped r s2, Takes subs i s skipped r s2 ->
  exists n, forall fuel d, n <= fuel -> i < d -> call fuel d i (nodes s) = Ret (r, nodes s2).
Proof.
  induction i as [i IH] using (well_founded_induction lt_wf). intros L s skipped r s2 T. destruct i as [|i].
  - (* the source *)
    assert (N : Nexts s r s2).
    { destruct T as [s skipped s1 t s2 P F N _|s skipped s1 e s2 P F N].
      - destruct P as [|s t' s' l s3 N1 P]; [exact N|]. inversion F as [|? ? A]; subst. exfalso. apply A. constructor.
      - destruct P as [|s t' s' l s3 N1 P]; [exact N|]. inversion F as [|? ? A]; subst. exfalso. apply A. constructor. }
    destruct N as [n N]. exists n. intros fuel d H D. destruct d as [|d]; [lia|]. cbn [call nodes nth_error].
    rewrite N by exact H. reflexivity.
  - destruct (nth_error subs i) as [[p up]|] eqn:E; [|apply nth_error_None in E; lia].
    pose proof (subs_ok _ _ _ E) as U.
    assert (LOOP : exists n, forall fuel d k, n <= fuel -> up < d -> n <= k ->
      sub_loop (call fuel d up) p k (nodes s) = Ret (r, nodes s2)).
    { (* by the number of tokens skipped *)
      remember (length skipped) as len eqn:Hl. revert s skipped Hl T.
      induction len as [len IHl] using (well_founded_induction lt_wf). intros s skipped Hl T.
      destruct (first_passing up skipped) as [F|(a & x & b & -> & F & PX)].
      - (* a single call *)
        assert (T' : Takes subs up s skipped r s2).
        { destruct T as [s skipped s1 t s2 P _ N PT|s skipped s1 e s2 P _ N].
          - apply (Takes_token subs up s skipped s1 t s2 P F N). apply (passes_sub t i p up E) in PT. apply PT.
          - now apply (Takes_end subs up s skipped s1 e s2). }
        destruct (IH up ltac:(lia) ltac:(lia) _ _ _ _ T') as [n C]. exists (S n).
        intros fuel d k H D K. destruct k as [|k]; [lia|]. cbn [sub_loop]. rewrite C by lia. cbn [bind].
        destruct T as [s skipped s1 t s2 P _ N PT|s skipped s1 e s2 P _ N].
        + apply (passes_sub t i p up E) in PT. destruct PT as [-> _]. reflexivity.
        + now destruct e.
      - (* x passes upstream, and is rejected here *)
        assert (R : p x = false /\ exists s1', Takes subs up s a (Some x, None) s1' /\ Takes subs (S i) s1' b r s2).
        { assert (G : forall y s1, Pulls s (a ++ y :: b) s1 -> Forall (fun z => ~ passes subs z (S i)) (a ++ y :: b) -> passes subs y up ->
            p y = false /\ exists s0 s1', Pulls s a s0 /\ Nexts s0 (Some y, None) s1' /\ Pulls s1' b s1 /\
              Forall (fun z => ~ passes subs z (S i)) b).
          { intros y s1 P FF PY. apply Forall_app in FF. destruct FF as [_ FF]. inversion FF as [|? ? NY FB]; subst.
            split.
            - destruct (p y) eqn:Q; [|reflexivity]. exfalso. apply NY. now apply (passes_sub y i p up E).
            - apply Pulls_app_inv in P. destruct P as (s0 & P0 & P1). inversion P1; subst. now exists s0, s3 || eauto 8. }
          inversion T as [s' sk' s1 t s2' P FF N PT|s' sk' s1 e s2' P FF N]; subst.
          - destruct (G x s1 P FF PX) as (Q & s0 & s1' & P0 & N0 & P1 & FB). split; [exact Q|]. exists s1'. split.
            + now apply (Takes_token subs up s a s0 x s1').
            + now apply (Takes_token subs (S i) s1' b s1 t s2).
          - destruct (G x s1 P FF PX) as (Q & s0 & s1' & P0 & N0 & P1 & FB). split; [exact Q|]. exists s1'. split.
            + now apply (Takes_token subs up s a s0 x s1').
            + now apply (Takes_end subs (S i) s1' b s1 e s2). }
        destruct R as (Q & s1' & T1 & T2).
        destruct (IH up ltac:(lia) ltac:(lia) _ _ _ _ T1) as [n1 C1].
        destruct (IHl (length b)) with (s := s1') (skipped := b) as [n2 C2]; try easy.
        { rewrite Hl, app_length. cbn. lia. }
        exists (S (n1 + n2)). intros fuel d k H D K. destruct k as [|k]; [lia|]. cbn [sub_loop]. rewrite C1 by lia.
        cbn [bind]. rewrite Q. apply C2; lia. }
    destruct LOOP as [n C]. exists n. intros fuel d H D. destruct d as [|d]; [lia|].
    cbn [call nodes nth_error]. rewrite nth_error_map, E. cbn [option_map fst snd]. apply C; lia.
Qed.

Lemma calls_lemma s is rs l s2 : Serves subs s is rs l s2 -> Forall (fun i => i <= length subs) is ->
  Returns (fun fuel => calls fuel is (nodes s)) (rs, nodes s2).
Proof.
  intro H. induction H as [s|s i skipped o e s1 is rs l s2 T H IH]; intro F.
  - exists 0. reflexivity.
  - inversion F as [|? ? A B]; subst. destruct (call_lemma i A _ _ _ _ T) as [n C]. destruct (IH B) as [n' C'].
    exists (S (n + n' + i)). intros fuel G. cbn [calls]. rewrite C by lia. cbn [bind]. rewrite C' by lia. reflexivity.
Qed.

Lemma takes_pulls i s skipped o e s1 : Takes subs i s skipped (o, e) s1 ->
  (exists t, o = Some t /\ e = None /\ Pulls s (skipped ++ [t]) s1) \/
  (o = None /\ exists s0, Pulls s skipped s0 /\ Nexts s0 (None, e) s1).
Proof.
  intro T. inversion T; subst.
  - left. eexists. repeat split. eapply Pulls_app; [eassumption|]. econstructor; [eassumption|constructor].
  - right. eauto.
Qed.

(** What the calls take are tokens of the source. *)
Lemma serves_yields s is rs l s2 : Serves subs s is rs l s2 -> forall all, Yields s all ->
  exists rest, all = l ++ rest /\ Yields s2 rest.
Proof.
  intro H. induction H as [s|s i skipped o e s1 is rs l s2 T H IH]; intros all Y.
  - now exists all.
  - destruct Y as (sf & EM & Q).
    assert (ONE : exists rest, all = skipped ++ match o with Some t => [t] | None => [] end ++ rest /\ Yields s1 rest).
    { assert (PULL : forall a s', Pulls s a s' -> exists rest, all = a ++ rest /\ Emits s' rest None sf).
      { clear - EM. intros a s' P. revert all EM. induction P as [s|s t s1 a s2 N P IHP]; intros all EM; [now exists all|].
        inversion EM; subst.
        - match goal with X : Nexts s (None, None) _ |- _ => destruct (Nexts_inj _ _ _ _ _ N X); discriminate end.
        - match goal with X : Nexts s (Some _, None) ?s' |- _ => destruct (Nexts_inj _ _ _ _ _ N X) as [I ->]; injection I as -> end.
          destruct (IHP _ ltac:(eassumption)) as (rest & -> & R). now exists rest. }
      destruct (takes_pulls _ _ _ _ _ _ T) as [(t & -> & -> & P)|(-> & s0 & P & N)].
      - destruct (PULL _ _ P) as (rest & -> & R). exists rest. rewrite <- app_assoc. split; [reflexivity|]. now exists sf.
      - destruct (PULL _ _ P) as (rest & -> & R). inversion R; subst.
        + match goal with X : Nexts s0 (None, None) _ |- _ => destruct (Nexts_inj _ _ _ _ _ N X) as [_ ->] end.
          exists []. split; [reflexivity|]. now apply Quiet_Yields.
        + match goal with X : Nexts s0 (Some _, None) _ |- _ => destruct (Nexts_inj _ _ _ _ _ N X) as [I _]; discriminate end. }
    destruct ONE as (rest & -> & Y1). destruct (IH _ Y1) as (rest' & -> & Y2). exists rest'.
    now rewrite <- !app_assoc.
Qed.

Lemma sub_of_app {A} (a b l : list A) : sub_of b l -> sub_of b (a ++ l).
Proof. intro H. induction a; [exact H|]. now apply Sub_skip. Qed.
Lemma sub_of_both {A} (a b l : list A) : sub_of b l -> sub_of (a ++ b) (a ++ l).
Proof. intro H. induction a; [exact H|]. now apply Sub_take. Qed.

Lemma serves_sub s is rs l s2 : Serves subs s is rs l s2 -> sub_of (delivered rs) l.
Proof.
  intro H. induction H as [s|s i skipped o e s1 is rs l s2 T H IH]; [constructor|].
  apply sub_of_app. cbn [delivered flat_map fst]. now apply sub_of_both.
Qed.

(** Every call has a result when the source is finite. *)
Lemma takes_total i s l : Yields s l -> exists skipped r s1 rest, Takes subs i s skipped r s1 /\ Yields s1 rest.
Proof.
  intros (sf & EM & Q). remember None as e eqn:He. induction EM as [s s' N|s o e' s' N|s t s1 l e s2 N EM IH]; subst.
  - exists [], (None, None), s', []. split; [|now apply Quiet_Yields].
    apply (Takes_end subs i s [] s None s'); [constructor|constructor|exact N].
  - discriminate.
  - destruct (passes_dec t i) as [Y|NP].
    + exists [], (Some t, None), s1, l. split; [|now exists s2].
      apply (Takes_token subs i s [] s t s1); [constructor|constructor|exact N|exact Y].
    + destruct (IH eq_refl Q) as (sk & r & s1' & rest & T & Y). exists (t :: sk), r, s1', rest. split; [|exact Y].
      inversion T; subst.
      * eapply Takes_token; [econstructor; eassumption|now constructor|eassumption|assumption].
      * eapply Takes_end; [econstructor; eassumption|now constructor|eassumption].
Qed.

Lemma serves_total : forall is s l, Yields s l -> exists rs l' s2, Serves subs s is rs l' s2.
Proof.
  induction is as [|i is IH]; intros s l Y.
  - exists [], [], s. constructor.
  - destruct (takes_total i s l Y) as (sk & [o e] & s1 & rest & T & Y1). destruct (IH _ _ Y1) as (rs & l' & s2 & H).
    do 3 eexists. econstructor; eassumption.
Qed.
End Subs.

Lemma C83_lemma (subs : list ((token -> bool) * nat)) h s l is :
  over h s subs -> Forall (fun i => i <= length subs) is -> Yields s l ->
  exists rs taken rest s' h', l = taken ++ rest /\ Serves subs s is rs taken s' /\ over h' s' subs /\ Yields s' rest /\
    Returns (fun fuel => calls fuel is h) (rs, h') /\ sub_of (delivered rs) taken.
Proof.
  intros [-> OK] F Y. destruct (serves_total subs OK is s l Y) as (rs & taken & s' & H).
  destruct (serves_yields subs s is rs taken s' H l Y) as (rest & -> & Y').
  exists rs, taken, rest, s', (nodes subs s'). repeat split; try assumption.
  - now apply (calls_lemma subs OK s is rs taken s').
  - now apply (serves_sub subs s is rs taken s').
Qed.

Lemma C83_any_source_lemma (subs : list ((token -> bool) * nat)) h s is rs taken s' :
  over h s subs -> Forall (fun i => i <= length subs) is -> Serves subs s is rs taken s' ->
  exists h', over h' s' subs /\ Returns (fun fuel => calls fuel is h) (rs, h').
Proof.
  intros [-> OK] F H. exists (nodes subs s'). split; [now split|]. now apply (calls_lemma subs OK s is rs taken s').
Qed.

(** A stream used by nobody else is the one of the other theorems. *)
Lemma C83_alone_lemma (p : token -> bool) (fuel n : nat) (s : TokenStream) : 2 <= fuel ->
  (do (rs, _) <- Shared.calls fuel (repeat 1 n) [Source s; Sub p 0]; Ret rs) = AliasSpec.calls fuel n (Where p s).
Proof.
  destruct fuel as [|[|f]]; [lia|lia|]. intros _.
  set (fuel := S (S f)).
    assert (L : forall k s, sub_loop (call fuel (S f) 0) p k [Source s; Sub p 0] =
      (do (r, x) <- where_loop (stateless p) fuel k (tt, s); Ret (r, [Source (snd x); Sub p 0]))).
    { clear s; induction k as [|k IH]; intro s; [reflexivity|]. cbn [sub_loop where_loop call nth_error].
      destruct (Next fuel s) as [[[o e] s']| |]; cbn [bind]; try reflexivity.
      destruct e as [e|]; [now destruct o|]. destruct o as [t|]; [|reflexivity]. cbn [stateless set_node].
      destruct (p t); [reflexivity|]. apply IH. }
    assert (M : forall n s t e, (do (rs, _) <- Shared.calls fuel (repeat 1 n) [Source s; Sub p 0]; Ret rs) =
      AliasSpec.calls fuel n (closure (where_next (stateless p)) t e (tt, s))).
    { clear n s; induction n as [|n IH]; intros s t e; [reflexivity|].
      cbn [repeat Shared.calls AliasSpec.calls]. unfold Next. cbn [ts_next closure].
      change (call fuel fuel 1 [Source s; Sub p 0]) with (sub_loop (call fuel (S f) 0) p fuel [Source s; Sub p 0]).
      rewrite L. unfold where_next. destruct (where_loop (stateless p) fuel fuel (tt, s)) as [[r [[] s']]| |]; cbn [bind snd]; try reflexivity.
      rewrite <- IH. destruct (Shared.calls fuel (repeat 1 n) [Source s'; Sub p 0]) as [[rs h]| |]; reflexivity. }
    apply M.
Qed.
