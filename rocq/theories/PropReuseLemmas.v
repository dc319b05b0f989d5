(** * PropReuseLemmas: proofs for C86 *)

From Verif Require Import Base Utf8 Unicode UnicodeData Token Stream Queue Tokenizer Filters Trie Synonyms Words
  Sources Aliasing AliasSpec ReuseSpec OnceProofs.
Local Open Scope list_scope.

Lemma set_nth_length {B} n (x : B) : forall l, length (set_nth n x l) = length l.
Proof. induction n; intros [|y l]; cbn; auto. Qed.

Lemma set_nth_same {B} n (x : B) : forall l y, nth_error l n = Some y -> nth_error (set_nth n x l) n = Some x.
Proof. induction n; intros [|z l] y; cbn; try discriminate; [reflexivity|apply IHn]. Qed.

Lemma set_nth_other {B} n k (x : B) : n <> k -> forall l, nth_error (set_nth n x l) k = nth_error l k.
Proof. revert k. induction n; intros [|k] N [|z l]; cbn; auto; try congruence. Qed.

Section Reuse.
Variable K : maker.
Variable fuel : nat.
Variable m : mem.
Variable f1 : obj K.
(** However often it was applied, the filter is [f1], and makes the streams a new one does. *)
Hypothesis H : forall f s f' x, f = make K m \/ f = f1 -> apply K fuel m f s = Ret (f', x) ->
  f' = f1 /\ apply K fuel m (make K m) s = Ret (f1, x).
(** An application fails in the same way. *)
Hypothesis H' : forall f s, f = f1 -> forall x, apply K fuel m (make K m) s = Ret (f1, x) -> exists y, apply K fuel m f s = Ret y.

Definition alone (streams : list (loc K)) (i : nat) (ops : list op) : outcome (list result) :=
  match nth_error streams i with
  | Some x => run K fuel m f1 [x] (only i (length streams) ops)
  | None => run K fuel m (make K m) [] (only i (length streams) ops)
  end.

Lemma run_alone ops : forall f streams rs, proper (length streams) ops -> f = make K m \/ f = f1 -> (streams <> [] -> f = f1) ->
  run K fuel m f streams ops = Ret rs -> length rs = number_of_calls ops /\ forall i, alone streams i ops = Ret (picked i ops rs).
Proof.
  induction ops as [|o ops IH]; intros f streams rs P F N R.
  { injection R as <-. split; [reflexivity|]. intros i. unfold alone. destruct (nth_error streams i); reflexivity. }
  destruct o as [m'|s|j]; cbn [proper] in P; [contradiction| |destruct P as [L P]]; cbn [run] in R.
  - destruct (apply K fuel m f s) as [[f' x]| |] eqn:A; cbn [bind] in R; try discriminate.
    destruct (H _ _ _ _ F A) as [-> A0].
    destruct (IH f1 (streams ++ [x]) rs) as [Ln Al]; [rewrite app_length; cbn [length]; rewrite Nat.add_1_r; exact P|now right|auto|exact R|].
    split; [exact Ln|]. intros i. specialize (Al i). unfold alone in *. rewrite app_length in Al. cbn [length] in Al. rewrite Nat.add_1_r in Al.
    cbn [only picked]. destruct (Nat.eqb_spec (length streams) i) as [E|E].
    + rewrite nth_error_app2 in Al by lia. replace (i - length streams) with 0 in Al by lia. cbn [nth_error] in Al.
      rewrite (proj2 (nth_error_None streams i)) by lia. cbn [run]. rewrite A0. cbn [bind app]. exact Al.
    + destruct (Nat.lt_ge_cases i (length streams)) as [Li|Li].
      * rewrite nth_error_app1 in Al by exact Li. exact Al.
      * rewrite (proj2 (nth_error_None (streams ++ [x]) i)) in Al by (rewrite app_length; cbn; lia).
        rewrite (proj2 (nth_error_None streams i)) by lia. exact Al.
  - destruct (nth_error streams j) as [y|] eqn:Ny; [|discriminate].
    assert (f = f1) as -> by (apply N; intros ->; destruct j; discriminate).
    destruct (next K fuel m f1 y) as [[r y']| |] eqn:X; cbn [bind] in R; try discriminate.
    destruct (run K fuel m f1 (set_nth j y' streams) ops) as [rs'| |] eqn:R'; cbn [bind] in R; try discriminate. injection R as <-.
    destruct (IH f1 (set_nth j y' streams) rs') as [Ln Al]; [rewrite set_nth_length; exact P|now right|auto|exact R'|].
    split; [cbn; cbn in Ln; now rewrite Ln|]. intros i. specialize (Al i). unfold alone in *. rewrite set_nth_length in Al. cbn [only picked].
    destruct (Nat.eqb_spec j i) as [->|E].
    + rewrite (set_nth_same _ _ _ _ Ny) in Al. rewrite Ny. cbn [run nth_error]. rewrite X. cbn [bind set_nth]. rewrite Al. reflexivity.
    + rewrite (set_nth_other _ _ _ E) in Al. exact Al.
Qed.

Lemma alone_run ops : forall f streams rs, proper (length streams) ops -> f = make K m \/ f = f1 -> (streams <> [] -> f = f1) ->
  length rs = number_of_calls ops -> (forall i, alone streams i ops = Ret (picked i ops rs)) -> run K fuel m f streams ops = Ret rs.
Proof.
  induction ops as [|o ops IH]; intros f streams rs P F N Ln Al.
  { destruct rs; [reflexivity|discriminate]. }
  destruct o as [m'|s|j]; cbn [proper] in P; [contradiction| |destruct P as [L P]]; cbn [run].
  - pose proof (Al (length streams)) as A. unfold alone in A. rewrite (proj2 (nth_error_None streams (length streams))) in A by lia.
    cbn [only] in A. rewrite Nat.eqb_refl in A. cbn [run] in A. destruct (apply K fuel m (make K m) s) as [[f' x]| |] eqn:A0; cbn [bind] in A; try discriminate.
    destruct (H _ _ _ _ (or_introl eq_refl) A0) as [-> _].
    assert (A1 : apply K fuel m f s = Ret (f1, x)).
    { destruct F as [->|F]; [exact A0|]. destruct (H' f s F x A0) as [[f2 y] E]. rewrite E. destruct (H _ _ _ _ (or_intror F) E) as [-> E']. congruence. }
    rewrite A1. cbn [bind]. apply IH; [rewrite app_length; cbn [length]; rewrite Nat.add_1_r; exact P|now right|auto|exact Ln|].
    intros i. specialize (Al i). unfold alone in *. rewrite app_length. cbn [length]. rewrite Nat.add_1_r. cbn [only picked] in Al.
    destruct (Nat.eqb_spec (length streams) i) as [E|E].
    + rewrite nth_error_app2 by lia. replace (i - length streams) with 0 by lia. cbn [nth_error].
      rewrite (proj2 (nth_error_None streams i)) in Al by lia. cbn [run] in Al. rewrite A0 in Al. cbn [bind app] in Al. exact Al.
    + destruct (Nat.lt_ge_cases i (length streams)) as [Li|Li].
      * rewrite nth_error_app1 by exact Li. exact Al.
      * rewrite (proj2 (nth_error_None (streams ++ [x]) i)) by (rewrite app_length; cbn; lia).
        rewrite (proj2 (nth_error_None streams i)) in Al by lia. exact Al.
  - destruct rs as [|r rs]; [discriminate|]. cbn in Ln. injection Ln as Ln.
    destruct (nth_error streams j) as [y|] eqn:Ny; [|apply nth_error_None in Ny; lia].
    assert (f = f1) as -> by (apply N; intros ->; destruct j; discriminate).
    pose proof (Al j) as A. unfold alone in A. rewrite Ny in A. cbn [only picked] in A. rewrite Nat.eqb_refl in A. cbn [run nth_error] in A.
    destruct (next K fuel m f1 y) as [[r0 y']| |] eqn:X; cbn [bind set_nth] in A; try discriminate.
    destruct (run K fuel m f1 [y'] (only j (length streams) ops)) as [rs0| |] eqn:R0; cbn [bind] in A; try discriminate. injection A as -> A. subst rs0.
    cbn [bind]. rewrite (IH f1 (set_nth j y' streams) rs); [reflexivity|rewrite set_nth_length; exact P|now right|auto|exact Ln|].
    intros i. specialize (Al i). unfold alone in *. rewrite set_nth_length. cbn [only picked] in Al.
    destruct (Nat.eqb_spec j i) as [E|E]; [subst i|].
    + rewrite (set_nth_same _ _ _ _ Ny). exact R0.
    + rewrite (set_nth_other _ _ _ E). exact Al.
Qed.

Lemma reuse : separate K fuel m.
Proof.
  intros ops P rs. unfold session. split.
  - intros R. destruct (run_alone ops (make K m) [] rs P (or_introl eq_refl) ltac:(congruence) R) as [L A]. split; [exact L|].
    intros i. specialize (A i). unfold alone in A. destruct i; exact A.
  - intros [L A]. apply alone_run; [exact P|now left|congruence|exact L|]. intros i. specialize (A i). unfold alone. destruct i; exact A.
Qed.
End Reuse.

Lemma C86_stopwords U ic fuel m : separate (stopwords_maker U ic) fuel m.
Proof.
  apply (reuse (stopwords_maker U ic) fuel m (make (stopwords_maker U ic) m)).
  - intros f s f' x F E. cbn in *. injection E as <- <-. destruct F; subst; auto.
  - intros f s _ x _. eexists. reflexivity.
Qed.

Lemma C86_mapper fuel m : separate mapper_maker fuel m.
Proof.
  apply (reuse mapper_maker fuel m tt).
  - intros [] s f' x F E. cbn in *. injection E as <- <-. auto.
  - intros f s _ x _. eexists. reflexivity.
Qed.

Lemma C86_synonyms U scan ic fuel m :
  (forall e b, build U scan fuel (mkConfig (m_mappings m) ic (m_runes m)) = Ret (e, b) -> e = None) ->
  separate (synonyms_maker U scan ic) fuel m.
Proof.
  intros B. destruct (build U scan fuel (mkConfig (m_mappings m) ic (m_runes m))) as [[e b]| |] eqn:E.
  - assert (e = None) as -> by (apply (B e b); reflexivity).
    apply (reuse (synonyms_maker U scan ic) fuel m (Some b)).
    + intros f s f' x F A. cbn in *. rewrite E in *. cbn [bind] in *. destruct F as [->| ->]; cbn in A; [injection A as <- <-|injection A as <- <-]; auto.
    + intros f s -> x _. cbn. eexists. reflexivity.
  - apply (reuse (synonyms_maker U scan ic) fuel m None).
    + intros f s f' x F A. assert (f = None) as -> by (destruct F; auto). cbn in A. rewrite E in A. discriminate.
    + intros f s -> x A. cbn in A. rewrite E in A. discriminate.
  - apply (reuse (synonyms_maker U scan ic) fuel m None).
    + intros f s f' x F A. assert (f = None) as -> by (destruct F; auto). cbn in A. rewrite E in A. discriminate.
    + intros f s -> x A. cbn in A. rewrite E in A. discriminate.
Qed.

(** A filter that could not be built: the first stream reports it, the second does not. *)
Lemma C86_synonyms_not U scan ic fuel m e b :
  build U scan (S fuel) (mkConfig (m_mappings m) ic (m_runes m)) = Ret (Some e, b) ->
  ~ separate (synonyms_maker U scan ic) (S fuel) m.
Proof.
  intros B S. assert (b = mkBuilt None 0) as ->.
  { unfold build in B. destruct (build_loop _ _ _ _ _) as [[[e'|] acc]| |]; cbn [bind] in B; congruence. }
  set (s := NewTokenStream (fun _ (_ : unit) => Ret ((None, None), tt)) tt).
  assert (P : proper 0 [Apply s; Apply s; Call 1]) by (cbn; auto).
  destruct (S _ P [(None, None)]) as [A _].
  assert (R : session (synonyms_maker U scan ic) (Datatypes.S fuel) m [Apply s; Apply s; Call 1] = Ret [(None, None)]).
  { unfold session. cbn [run make apply next synonyms_maker]. rewrite B. cbn. reflexivity. }
  destruct (A R) as [_ A1]. specialize (A1 1). unfold session in A1. cbn [only Nat.eqb picked run make apply synonyms_maker] in A1.
  rewrite B in A1. cbn in A1. discriminate.
Qed.

Lemma C86_synonyms_exact U scan ic fuel m : fuel <> 0 ->
  (separate (synonyms_maker U scan ic) fuel m <->
   forall e b, build U scan fuel (mkConfig (m_mappings m) ic (m_runes m)) = Ret (e, b) -> e = None).
Proof.
  intros F. split; [|apply C86_synonyms]. intros S e b B. destruct e as [e|]; [|reflexivity]. exfalso.
  destruct fuel; [congruence|]. exact (C86_synonyms_not _ _ _ _ _ _ _ B S).
Qed.

Lemma C86_refutation : ~ (forall U scan ic fuel m, scanner_ok scan -> fuel <> 0 -> separate (synonyms_maker U scan ic) fuel m).
Proof.
  intros S. specialize (S go_unicode (limited 5) true 20 (mkMem [] [("javascript", "js")]%string [] []) (limited_ok 5) ltac:(discriminate)).
  rewrite (C86_synonyms_exact go_unicode (limited 5) true 20 _ ltac:(discriminate)) in S.
  assert (B : exists e b, build go_unicode (limited 5) 20 (mkConfig [("javascript", "js")]%string true []) = Ret (Some e, b))
    by (vm_compute; eauto).
  destruct B as [e [b B]]. discriminate (S _ _ B).
Qed.
