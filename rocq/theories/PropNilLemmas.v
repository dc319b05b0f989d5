(** * Proofs about mapping functions that return nil (C19) *)

From Coq Require Import Lia.
From Verif Require Import Base Utf8 Unicode Token Stream StreamSpec Filters FilterSpec NilSpec StreamProofs FilterProofs.

Lemma goes_apply fs gs t u : goes fs t u -> apply_funcs (fs ++ gs) (Some t) = apply_funcs gs (Some u).
Proof. induction 1 as [|f fs t u t' E G IH]; [reflexivity|]. cbn [app apply_funcs]. rewrite E. exact IH. Qed.

Lemma goes_all fs t u : goes fs t u -> apply_funcs fs (Some t) = Ret (Some u).
Proof. intros G. rewrite <- (app_nil_r fs). now rewrite (goes_apply fs [] t u G). Qed.

Lemma mapper_pulls fs s a s1 : Pulls s a s1 -> forall out, Forall2 (goes fs) a out -> PullsX (mapper_next fs) s out s1.
Proof.
  induction 1 as [|s t s1 l s2 N P IH]; intros out F; inversion F; subst; [constructor|].
  eapply PX_cons; [|apply IH; eassumption]. apply (mapper_tok fs s t (Some y) s1 N). now apply goes_all.
Qed.

Lemma C19_stops_lemma fs f s a out s1 t u s2 : Forall2 (goes (fs ++ [f])) a out -> Pulls s a s1 -> Nexts s1 (Some t, None) s2 ->
  goes fs t u -> f u = None -> exists w, Returns (fun n => ToSlice n (Mapper (fs ++ [f]) s)) ((out, None), w) /\ ts_next w = ts_next (Mapper (fs ++ [f]) s2).
Proof.
  intros F P N G E. assert (X : EmitsX (mapper_next (fs ++ [f])) s (out ++ []) None s2).
  { eapply PullsX_EmitsX; [eapply mapper_pulls; eauto|]. apply EX_eof. apply (mapper_tok _ s1 t None s2 N).
    rewrite (goes_apply _ _ _ _ G). cbn. now rewrite E. }
  rewrite app_nil_r in X. destruct (EmitsX_Emits _ _ _ _ _ X None None) as (k & e & Y). destruct (ToSlice_emits _ _ _ _ Y) as (w & Ew & R).
  exists w. split; [exact R|]. rewrite Ew. reflexivity.
Qed.

Lemma scan_panics {A} (body : A -> token -> A) s l s1 : Pulls s l s1 -> Panics (fun n => Next n s1) -> forall acc,
  exists n, forall fuel k, n <= fuel -> length l < k -> scan_loop body fuel k acc s = Panic.
Proof.
  induction 1 as [s|s t s1 l s2 N P IH]; intros [n Hn] acc.
  - exists n. intros fuel k Hf Hk. destruct k as [|k]; [lia|]. cbn [scan_loop]. unfold Scan. rewrite Hn by lia. reflexivity.
  - destruct (Scan_token _ _ _ N) as [n1 H1]. destruct (IH (ex_intro _ n Hn) (body acc t)) as [n2 H2]. exists (n1 + n2). intros fuel k Hf Hk.
    destruct k as [|k]; [cbn in Hk; lia|]. cbn [scan_loop]. rewrite H1 by lia. cbn [bind]. cbn in Hk. specialize (H2 fuel k ltac:(lia) ltac:(lia)).
    rewrite <- H2. simpl. destruct k; simpl; reflexivity.
Qed.

Lemma C19_panics_lemma fs f g gs s a out s1 t u s2 : Forall2 (goes (fs ++ f :: g :: gs)) a out -> Pulls s a s1 -> Nexts s1 (Some t, None) s2 ->
  goes fs t u -> f u = None -> Panics (fun n => ToSlice n (Mapper (fs ++ f :: g :: gs) s)).
Proof.
  intros F P [n N] G E. destruct (PullsX_Pulls _ _ _ _ (mapper_pulls _ _ _ _ P _ F) None None) as (k & e & Y).
  assert (X : Panics (fun m => Next m (closure (mapper_next (fs ++ f :: g :: gs)) k e s1))).
  { exists n. intros m Hm. unfold Next. cbn [ts_next closure]. unfold mapper_next. rewrite N by lia. cbn [bind]. rewrite (goes_apply _ _ _ _ G). cbn [apply_funcs]. rewrite E. reflexivity. }
  destruct (scan_panics (fun l t => l ++ [t]) _ _ _ Y X []) as [n0 H]. exists (n0 + S (length out)). intros m Hm.
  unfold ToSlice. change (Mapper (fs ++ f :: g :: gs) s) with (closure (mapper_next (fs ++ f :: g :: gs)) None None s). rewrite H by lia. reflexivity.
Qed.
