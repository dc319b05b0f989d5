(** * Lemmas behind C95, C96 *)

From Verif Require Import Base Utf8 Unicode UnicodeData Token Stream StreamSpec Tokenizer Words WordSplit Ascii Filters FilterSpec TextSpec
  StreamProofs Utf8Proofs TokenProofs FilterProofs WordsProofs WordSplitProofs WordStable WordJoin Sources PropSigilLemmas PropAsciiLemmas PropTwitterLemmas PropRetextLemmas WordAlone.
From Verif Require GeneratorProofs.

Local Opaque wbc.
Local Arguments wbc : simpl never.

(** ** Ordinary characters make one word *)

Lemma ordinary_loop l : forall r0 c cur, ordinary r0 -> Forall ordinary (map fst l) ->
  seg_loop (mkCtx (wbc r0) (wbc r0) c false) cur l = [(cur ++ bytes_of l)%string].
Proof.
  induction l as [|[r b] l IH]; intros r0 c cur O F; cbn [seg_loop]; [unfold bytes_of; cbn; now rewrite sapp_nil_r|].
  cbn [map fst] in F. inversion F as [|? ? Or Fl]; subst.
  assert (B : boundary (mkCtx (wbc r0) (wbc r0) c false) r l = false).
  { apply after_ordinary; [exact O|]. cbn [continues]. destruct Or as [E|[E|[E|[]]]]; unfold alphabetic, digit, connector; rewrite <- E; cbn; auto 8. }
  rewrite B. replace (advance (mkCtx (wbc r0) (wbc r0) c false) r) with (mkCtx (wbc r) (wbc r) (wbc r0) false) by (unfold advance; destruct Or as [E|[E|[E|[]]]]; rewrite <- E; reflexivity).
  rewrite (IH r (wbc r0)) by assumption. unfold bytes_of. cbn [map snd sconcat]. now rewrite sapp_assoc.
Qed.

Lemma ordinary_word v : v <> EmptyString -> Forall ordinary (runes v) -> word_segments v = [v].
Proof.
  intros N F. rewrite <- chunks_runes in F. pose proof (chunk_bytes v) as E. unfold word_segments. destruct (chunks v) as [|[r b] l] eqn:C; [apply chunks_empty in C; contradiction|].
  cbn [map fst] in F. inversion F as [|? ? O Fl]; subst.
  replace (advance (mkCtx WOther WOther WOther false) r) with (mkCtx (wbc r) (wbc r) WOther false) by (unfold advance; destruct O as [X|[X|[X|[]]]]; rewrite <- X; reflexivity).
  rewrite ordinary_loop by assumption. reflexivity.
Qed.

(** ** Sigils *)

Lemma wb_spec t : wordb t = true <-> word t.
Proof. exact (wordb_spec EmptyString (fun _ => true) t). Qed.

Section Sigils.
Variable c : ascii.
Let r := byte_of c.
Let sg := String c EmptyString.
Hypothesis small : (r <? 128)%N = true.
Hypothesis other : wbc r = WOther.
Hypothesis plain : range_mem ext_pict r = false.

Lemma sigil_fresh y : GeneratorProofs.fresh_start (String c y).
Proof. cbn. unfold cont, in_range. fold r. apply N.ltb_lt in small. replace (128 <=? r)%N with false by (symmetry; apply N.leb_gt; exact small). reflexivity. Qed.

Lemma sigil_chunks y : chunks (String c y) = (r, sg) :: chunks y.
Proof. cbn [chunks]. fold r. rewrite small. reflexivity. Qed.

Lemma boundary_other cx l : boundary cx r l = true.
Proof.
  unfold boundary. rewrite other, plain. cbn. rewrite !andb_false_r. destruct (lastc cx); reflexivity.
Qed.

Definition no_mark_first (y : string) : Prop := match runes y with [] => True | q :: _ => ~ mark q end.

Lemma sigil_first y : no_mark_first y -> word_segments (String c y) = sg :: word_segments y.
Proof.
  intros M. change (String c y) with (sg ++ y)%string. rewrite (segments_join sg y).
  - unfold word_segments at 1. unfold sg at 1. rewrite sigil_chunks. reflexivity.
  - unfold sg. cbn [append]. rewrite !sigil_chunks. reflexivity.
  - unfold sg. rewrite sigil_chunks. discriminate.
  - unfold sg. rewrite sigil_chunks. unfold no_mark_first in M. rewrite <- chunks_runes in M. destruct (chunks y) as [|[q x] l]; [exact I|]. cbn [map fst] in M. rewrite mark_ign in M.
    cbn [joint chunks]. unfold ctx_after. cbn [fold_left fst]. unfold advance. rewrite other. unfold boundary. cbn. destruct (wbc q); cbn in *; try reflexivity; try congruence.
Qed.

Lemma sigil_cut a y : no_mark_first y -> word_segments (a ++ String c y)%string = word_segments a ++ sg :: word_segments y.
Proof.
  intros M. rewrite <- (sigil_first y M). destruct (chunks a) as [|p l] eqn:Ca; [apply chunks_empty in Ca; now subst a|].
  apply segments_join; [apply GeneratorProofs.chunks_app, sigil_fresh|congruence|]. rewrite sigil_chunks. apply boundary_other.
Qed.

Variable U : unicode.
Variable legal : string -> bool.
Hypothesis G : good U sg legal.
Notation out := (sigil_out U sg legal false).
Notation pt := (piece_token U).

Lemma out_split n : forall l prev rest, length l <= n -> Forall (made U) l -> (forall l' t, l = l' ++ [t] -> tvalue t <> sg) ->
  exists p, out prev (l ++ rest) = out prev l ++ out p rest /\ (l = [] -> p = prev) /\
    (forall l' t, l = l' ++ [t] -> ~ word t -> boundary_ok p = true) /\
    (forall l' t, l = l' ++ [t] -> word t -> (forall l'' x, l' = l'' ++ [x] -> tvalue x <> sg) -> boundary_ok p = false).
Proof.
  destruct G as (NE & SW & MW).
  assert (Snoc : forall (x : token) l' t, [x] = l' ++ [t] -> l' = [] /\ t = x).
  { intros x l' t E. destruct l' as [|y [|z l']]; cbn in E; try discriminate. injection E as ->. auto. }
  induction n as [|n IH]; intros l prev rest Len M Last.
  { destruct l; [|cbn in Len; lia]. exists prev. cbn. repeat split; auto; intros l' t E; destruct l'; discriminate. }
  destruct l as [|x l]. { exists prev. cbn. repeat split; auto; intros l' t E; destruct l'; discriminate. }
  inversion M as [|? ? Mx Ml]; subst. cbn in Len. cbn [app sigil_out].
  assert (Tail : forall m, length m <= n -> Forall (made U) m -> m <> [] -> (exists k, x :: l = k ++ m) -> forall q,
    exists p, out q (m ++ rest) = out q m ++ out p rest /\
      (forall l' t, x :: l = l' ++ [t] -> ~ word t -> boundary_ok p = true) /\
      (forall l' t, x :: l = l' ++ [t] -> word t -> (forall l'' y, l' = l'' ++ [y] -> tvalue y <> sg) -> boundary_ok p = false)).
  { intros m Lm Mm Nm (k & Ek) q. destruct (IH m q rest Lm Mm) as (p & P1 & _ & P3 & P4).
    - intros l' t E. apply (Last (k ++ l') t). now rewrite Ek, E, app_assoc.
    - exists p. split; [exact P1|]. destruct (exists_last Nm) as (m' & tm & Em). split.
      + intros l' t E W. rewrite Ek, Em, app_assoc in E. apply app_inj_tail in E as [_ <-]. exact (P3 m' tm Em W).
      + intros l' t E W H. rewrite Ek, Em, app_assoc in E. apply app_inj_tail in E as [<- <-]. apply (P4 m' tm Em W). intros l'' y E2. apply (H (k ++ l'') y). now rewrite E2, app_assoc. }
  destruct (boundary_ok prev && seqb (tvalue x) sg)%bool eqn:B.
  - assert (Vx : tvalue x = sg) by (apply andb_true_iff in B as [_ B]; now apply seqb_eq).
    destruct l as [|b l]. { exfalso. exact (Last [] x eq_refl Vx). }
    inversion Ml as [|? ? Mb Ml']; subst. cbn [app]. cbn in Len. destruct (legal (tvalue b)) eqn:Lg.
    + destruct l as [|d l].
      * exists (Some (merged U sg b)). cbn [app sigil_out]. repeat split; try discriminate.
        -- intros l' t E W. rewrite boundary_wordb, MW by assumption. destruct l' as [|y l']; [discriminate|]. injection E as <- E. apply Snoc in E as [-> ->].
           destruct (wordb b) eqn:Wb; [apply wb_spec in Wb; contradiction|reflexivity].
        -- intros l' t E W H. rewrite boundary_wordb, MW by assumption. destruct l' as [|y l']; [discriminate|]. injection E as <- E. apply Snoc in E as [-> ->].
           apply wb_spec in W. now rewrite W.
      * destruct (Tail (d :: l) ltac:(cbn in *; lia) Ml' ltac:(discriminate) ltac:(now exists [x; b]) (Some (merged U sg b))) as (p & P1 & P2 & P3).
        exists p. cbn [app] in P1 |- *. rewrite P1. repeat split; auto; discriminate.
    + destruct l as [|d l].
      * exists (Some x). cbn [app sigil_out]. repeat split; try discriminate.
        -- intros l' t E W. now rewrite boundary_wordb, SW.
        -- intros l' t E W H. exfalso. destruct l' as [|y l']; [discriminate|]. injection E as <- E. apply Snoc in E as [-> ->]. exact (H [] x eq_refl Vx).
      * destruct (Tail (d :: l) ltac:(cbn in *; lia) Ml' ltac:(discriminate) ltac:(now exists [x; b]) (Some x)) as (p & P1 & P2 & P3).
        exists p. cbn [app] in P1 |- *. rewrite P1. repeat split; auto; discriminate.
  - destruct l as [|d l].
    + exists (Some x). cbn [app sigil_out]. repeat split; try discriminate.
      * intros l' t E W. apply Snoc in E as [-> ->]. rewrite boundary_wordb. destruct (wordb x) eqn:Wb; [apply wb_spec in Wb; contradiction|reflexivity].
      * intros l' t E W H. apply Snoc in E as [-> ->]. rewrite boundary_wordb. apply wb_spec in W. now rewrite W.
    + destruct (Tail (d :: l) ltac:(cbn in *; lia) Ml ltac:(discriminate) ltac:(now exists [x]) (Some x)) as (p & P1 & P2 & P3).
      exists p. cbn [app] in P1 |- *. rewrite P1. repeat split; auto; discriminate.
Qed.

Lemma out_nonempty n : forall l prev, length l <= n -> Forall (fun t => tvalue t <> EmptyString) l -> Forall (fun t => tvalue t <> EmptyString) (out prev l).
Proof.
  destruct G as (NE & _ & _).
  induction n as [|n IH]; intros l prev Len F; [destruct l; [constructor|cbn in Len; lia]|]. destruct l as [|x l]; [constructor|]. cbn in Len. inversion F as [|? ? Fx Fl]; subst.
  cbn [sigil_out]. destruct (boundary_ok prev && seqb (tvalue x) sg)%bool.
  - destruct l as [|b l]; [now constructor|]. inversion Fl; subst. cbn in Len. destruct (legal (tvalue b)).
    + constructor; [rewrite merged_value by exact NE; discriminate|]. apply IH; [lia|assumption].
    + repeat (constructor; [assumption|]). apply IH; [lia|assumption].
  - constructor; [assumption|]. apply IH; [lia|assumption].
Qed.

(** Where texts are equal, lists of tokens with some text are. *)
Lemma same_place (l1 : list token) : forall l2 m1 m2, l1 ++ m1 = l2 ++ m2 -> Forall (fun t => tvalue t <> EmptyString) (l1 ++ m1) -> text l1 = text l2 -> l1 = l2 /\ m1 = m2.
Proof.
  clear. induction l1 as [|t l1 IH]; intros l2 m1 m2 E F T.
  - destruct l2 as [|t l2]; [auto|]. cbn in E. subst m1. inversion F; subst. rewrite text_cons in T. unfold text in T. cbn in T. destruct (tvalue t); [contradiction|discriminate].
  - destruct l2 as [|t2 l2].
    + cbn in E. subst m2. inversion F; subst. rewrite text_cons in T. unfold text in T. cbn in T. destruct (tvalue t); [contradiction|discriminate].
    + cbn in E. injection E as <- E. inversion F; subst. rewrite !text_cons in T. apply sapp_inv_head in T. destruct (IH l2 m1 m2 E H2 T) as [-> ->]. auto.
Qed.

Lemma pieces_made l : Forall (fun x => x <> EmptyString) l -> Forall (made U) (map pt l).
Proof.
  clear. induction 1 as [|x l N _ IH]; cbn [map]; constructor; [|exact IH]. pose proof (piece_token_ok U x N) as P. destruct (NewToken_value _ _ _ _ P) as (A & B & _).
  unfold made. now rewrite A, B.
Qed.

Lemma seg_some s : Forall (fun x => x <> EmptyString) (word_segments s).
Proof. apply Forall_forall. apply word_segments_ok. Qed.

Lemma tokens_of s : Yields (TokenizeString U words_scan s) (map pt (word_segments s)).
Proof. rewrite <- (seg_word s). exact (TokenizeString_yields U words_scan words_scan_ok s eq_refl). Qed.

Lemma text_out s : text (out None (map pt (word_segments s))) = s.
Proof.
  destruct G as (NE & _ & _). rewrite (joined_text U sg legal _ _ (sigil_out_joined U sg legal NE _ _ None (le_n _))), text_pieces. apply word_segments_ok.
Qed.

Variable a name b : string.
Hypothesis name_some : name <> EmptyString.
Hypothesis name_legal : legal name = true.
Hypothesis name_first : no_mark_first name.

Hypothesis name_chunks : chunks (name ++ b)%string = chunks name ++ chunks b.

Lemma name_text : word_segments (a ++ (sg ++ name) ++ b)%string = word_segments a ++ sg :: word_segments (name ++ b).
Proof.
  replace (a ++ (sg ++ name) ++ b)%string with (a ++ String c (name ++ b))%string by reflexivity. apply sigil_cut.
  unfold no_mark_first in *. rewrite <- !chunks_runes in *. rewrite name_chunks. destruct (chunks name) as [|p l] eqn:C; [apply chunks_empty in C; contradiction|]. exact name_first.
Qed.

Lemma placed p : (forall l t, map pt (word_segments a) = l ++ [t] -> tvalue t <> sg) ->
  out None (map pt (word_segments a) ++ pt sg :: map pt (word_segments (name ++ b)%string)) =
    out None (map pt (word_segments a)) ++ out p (pt sg :: map pt (word_segments (name ++ b)%string)) ->
  (lemma_between U words_scan (Sigil U sg legal) a (sg ++ name) b <-> exists t k, out p (pt sg :: map pt (word_segments (name ++ b)%string)) = t :: k /\ lemma_of U (sg ++ name) t).
Proof.
  intros Last E. destruct G as (NE & _ & _).
  pose proof (Sigil_yields U sg legal NE _ _ (tokens_of (a ++ (sg ++ name) ++ b)%string)) as Y. rewrite name_text, map_app in Y. cbn [map] in Y. rewrite E in Y.
  split.
  - intros (la & t & lb & Y2 & T & Lm). pose proof (Yields_inj _ _ _ Y2 Y) as Q.
    destruct (same_place la _ (t :: lb) _ Q) as [_ Z].
    + rewrite Q, <- E. apply (out_nonempty _ _ _ (le_n _)). apply Forall_app. assert (P : forall l, Forall (fun x => x <> EmptyString) l -> Forall (fun t => tvalue t <> EmptyString) (map pt l)).
      { intros l F. apply Forall_forall. intros t' I. apply in_map_iff in I as (x & <- & I). rewrite piece_token_value. rewrite Forall_forall in F. auto. }
      split; [apply P, seg_some|]. constructor; [rewrite piece_token_value; discriminate|apply P, seg_some].
    + rewrite T. symmetry. apply text_out.
    + exists t, lb. split; [now symmetry|exact Lm].
  - intros (t & k & Z & Lm). exists (out None (map pt (word_segments a))), t, k. rewrite Z in Y. split; [exact Y|]. split; [apply text_out|exact Lm].
Qed.

Lemma sg_not_name : sg <> (sg ++ name)%string.
Proof. intros H. apply name_some. injection H as H. now symmetry. Qed.

Lemma ready_found : ready_for U words_scan sg a ->
  (lemma_between U words_scan (Sigil U sg legal) a (sg ++ name) b <-> exists qs, word_segments (name ++ b)%string = name :: qs).
Proof.
  intros R. destruct G as (NE & SW & MW).
  destruct (out_split _ (map pt (word_segments a)) None (pt sg :: map pt (word_segments (name ++ b)%string)) (le_n _) (pieces_made _ (seg_some a))) as (p & P1 & P2 & P3 & _).
  { intros l' t E. destruct R as [->|(l & t' & Y & W & V)]; [destruct l'; discriminate|]. pose proof (Yields_inj _ _ _ Y (tokens_of a)) as Q. rewrite E in Q.
    apply app_inj_tail in Q as [_ <-]. exact V. }
  assert (B : boundary_ok p = true).
  { destruct R as [Ra|(l & t' & Y & W & V)].
    - rewrite P2 by (rewrite Ra; reflexivity). reflexivity.
    - apply (P3 l t'); [|exact W]. exact (Yields_inj _ _ _ (tokens_of a) Y). }
  rewrite (placed p); [|clear - R; intros l t E|exact P1].
  2: { destruct R as [->|(l0 & t' & Y & W & V)]; [destruct l; discriminate|]. pose proof (Yields_inj _ _ _ Y (tokens_of a)) as Q. rewrite E in Q.
       apply app_inj_tail in Q as [_ <-]. exact V. }
  cbn [sigil_out]. rewrite B, piece_token_value, seqb_refl. cbn [andb]. split.
  - intros (t & k & E & Lm). destruct (word_segments (name ++ b)%string) as [|q qs] eqn:Ws; cbn [map] in E.
    + injection E as <- _. destruct Lm as (V & _). rewrite piece_token_value in V. now apply sg_not_name in V.
    + rewrite piece_token_value in E. destruct (legal q).
      * injection E as <- _. destruct Lm as (V & _). rewrite merged_value, piece_token_value in V by exact NE. apply sapp_inv_head in V. subst q. eauto.
      * injection E as <- _. destruct Lm as (V & _). rewrite piece_token_value in V. now apply sg_not_name in V.
  - intros (qs & ->). cbn [map]. rewrite piece_token_value, name_legal. eexists _, _. split; [reflexivity|].
    pose proof (merged_lemma U sg NE (pt name)) as Lm. now rewrite piece_token_value in Lm.
Qed.

Lemma word_not_found : ends_in_word U words_scan sg a -> (forall t, made U t -> word t -> tvalue t <> sg) -> ~ lemma_between U words_scan (Sigil U sg legal) a (sg ++ name) b.
Proof.
  intros (l & t & Y & W & H) NW. destruct G as (NE & SW & MW).
  pose proof (Yields_inj _ _ _ (tokens_of a) Y) as Q.
  assert (Vt : tvalue t <> sg).
  { intros V. assert (M : made U t). { pose proof (pieces_made _ (seg_some a)) as M. rewrite Q in M. apply Forall_app in M as [_ M]. now inversion M. } exact (NW t M W V). }
  assert (Last : forall l' t', map pt (word_segments a) = l' ++ [t'] -> tvalue t' <> sg).
  { intros l' t' E. rewrite Q in E. apply app_inj_tail in E as [_ <-]. exact Vt. }
  destruct (out_split _ (map pt (word_segments a)) None (pt sg :: map pt (word_segments (name ++ b)%string)) (le_n _) (pieces_made _ (seg_some a)) Last) as (p & P1 & P2 & _ & P4).
  pose proof (P4 l t Q W H) as B. rewrite (placed p Last P1). cbn [sigil_out]. rewrite B. cbn [andb]. intros (x & k & E & Lm). injection E as <- _.
  destruct Lm as (V & _). rewrite piece_token_value in V. now apply sg_not_name in V.
Qed.
End Sigils.

(** ** Handles and hashtags *)

Lemma ordinary_no_mark r : ordinary r -> ~ mark r.
Proof. unfold ordinary, mark. intros [E|[E|[E|[]]]]; rewrite <- E; cbn; intuition congruence. Qed.

Lemma small_ordinary r : handle_rune r -> ordinary r /\ r <> RuneError.
Proof.
  intros H. assert (S : (r < 128)%N) by (unfold handle_rune in H; lia). split; [|unfold RuneError; lia].
  assert (T : forallb (fun n => let r := N.of_nat n in negb (handle_char r) || match wbc r with WALetter | WNumeric | WExtendNumLet => true | _ => false end) (seq 0 128) = true) by (vm_compute; reflexivity).
  rewrite forallb_forall in T. specialize (T (N.to_nat r)). cbv zeta in T. rewrite N2Nat.id in T.
  assert (C : handle_char r = true) by (unfold handle_char, in_range; unfold handle_rune in H; rewrite !orb_true_iff, !andb_true_iff, !N.leb_le, N.eqb_eq; tauto).
  rewrite C in T. cbn [negb orb] in T. specialize (T ltac:(apply in_seq; lia)). unfold ordinary. destruct (wbc r); try discriminate; cbn; auto.
Qed.

Lemma final_runes v rs r0 : runes v = rs ++ [r0] -> final (chunks v) r0.
Proof.
  rewrite <- chunks_runes. intros E. destruct (chunks v) as [|p l] eqn:C using rev_ind; [destruct rs; discriminate|]. rewrite map_app in E. cbn [map] in E.
  apply app_inj_tail in E as [_ E]. destruct p as [q x]. cbn in E. subst q. now exists l, x.
Qed.

Lemma named a sg name b rs r0 legal U :
  (sg = "@"%string \/ sg = "#"%string) -> good U sg legal -> legal name = true -> runes name = rs ++ [r0] -> Forall ordinary (runes name) ->
  Forall (fun r => r <> RuneError) (runes name) ->
  (ready_for U words_scan sg a -> (lemma_between U words_scan (Sigil U sg legal) a (sg ++ name) b <-> ~ continues r0 (runes b))) /\
  (ends_in_word U words_scan sg a -> ~ lemma_between U words_scan (Sigil U sg legal) a (sg ++ name) b).
Proof.
  intros Sg G Lg E O P.
  assert (N : name <> EmptyString) by (intros ->; destruct rs; discriminate).
  assert (C : chunks (name ++ b)%string = chunks name ++ chunks b) by now apply proper_app.
  assert (M : no_mark_first name) by (unfold no_mark_first; destruct (runes name); [exact I|]; inversion O; subst; now apply ordinary_no_mark).
  assert (O0 : ordinary r0) by (rewrite E, Forall_app in O; destruct O as [_ O]; now inversion O).
  pose proof (stands_first name b N C (ordinary_word name N O)) as S. rewrite (joint_after name r0 b (final_runes _ _ _ E) O0) in S.
  assert (NW : forall t, made U t -> word t -> tvalue t <> sg).
  { intros t Mt W V. destruct G as (_ & SW & _). apply wb_spec in W. rewrite (SW t Mt V) in W. discriminate. }
  destruct Sg as [-> | ->]; (split; [intros R; rewrite <- S; eapply ready_found; eauto; vm_compute; reflexivity|intros R; eapply word_not_found; eauto; vm_compute; reflexivity]).
Qed.

Lemma C95_exact U : FilterSpec.sane U -> forall a name rs r0 b, runes name = rs ++ [r0] -> Forall handle_rune (runes name) -> length (runes name) <= 15 ->
  (ready_for U words_scan "@" a -> (lemma_between U words_scan (Handles U) a ("@" ++ name) b <-> ~ continues r0 (runes b))) /\
  (ends_in_word U words_scan "@" a -> ~ lemma_between U words_scan (Handles U) a ("@" ++ name) b).
Proof.
  intros S a name rs r0 b E H Len.
  assert (O : Forall ordinary (runes name)) by (eapply Forall_impl; [|exact H]; intros r Hr; now apply small_ordinary).
  assert (P : Forall (fun r => r <> RuneError) (runes name)) by (eapply Forall_impl; [|exact H]; intros r Hr; now apply small_ordinary).
  apply (named a "@" name b rs r0 legalHandle U); auto; [now apply handles_good|]. apply C33_handle_lemma. auto.
Qed.

Lemma C96_exact U : FilterSpec.sane U -> uIsLetter U RuneError = false -> uIsNumber U RuneError = false ->
  forall a name rs r0 b, runes name = rs ++ [r0] -> legalHashtag U name = true -> Forall ordinary (runes name) ->
  (ready_for U words_scan "#" a -> (lemma_between U words_scan (Hashtags U) a ("#" ++ name) b <-> ~ continues r0 (runes b))) /\
  (ends_in_word U words_scan "#" a -> ~ lemma_between U words_scan (Hashtags U) a ("#" ++ name) b).
Proof.
  intros S NL NN a name rs r0 b E H O.
  assert (P : Forall (fun r => r <> RuneError) (runes name)).
  { apply C33_hashtag_lemma in H as [(r & Er & Lr)|(_ & H)].
    - rewrite Er. constructor; [congruence|constructor].
    - eapply Forall_impl; [|exact H]. intros r [Hr|[Hr|Hr]]; [congruence|congruence|]. subst r. discriminate. }
  apply (named a "#" name b rs r0 (legalHashtag U) U); auto. now apply hashtags_good.
Qed.

(** ** After a space *)

Definition ws (p : N * string) : Prop := wbc (fst p) = WWSegSpace /\ valid_rune (fst p) = true /\ snd p = encode_rune (fst p).

Definition fine (p : N * string) : Prop := wbc (fst p) = WWSegSpace -> ws p.

Lemma advance_lastc cx r : lastc (advance cx r) = wbc r.
Proof. unfold advance. destruct (is_ign (wbc r) && negb (is_nl (lastc cx)))%bool; reflexivity. Qed.

Lemma ws_joined cx r l : wbc r = WWSegSpace -> boundary cx r l = false -> lastc cx = WWSegSpace.
Proof.
  intros E. assert (P : range_mem ext_pict r = false).
  { destruct (range_mem ext_pict r) eqn:P; [|reflexivity]. exfalso. revert E P. clear. intros E P.
    assert (T : forallb (fun x => match x with (lo, hi, WWSegSpace) => forallb (fun p : N * N => (hi <? fst p)%N || (snd p <? lo)%N)%bool ext_pict | _ => true end) wb_ranges = true) by (vm_compute; reflexivity).
    destruct (WordLineProofs.lookup_class wb_ranges r WWSegSpace E ltac:(discriminate)) as (lo & hi & I & R). apply range_mem_In in P as (a & b & J & Q).
    rewrite forallb_forall in T. specialize (T _ I). cbn beta iota in T. rewrite forallb_forall in T. specialize (T _ J). cbn [fst snd] in T. apply orb_prop in T as [T|T]; apply N.ltb_lt in T; lia. }
  unfold boundary. rewrite E, P. cbn. destruct (lastc cx); cbn; intros H; try discriminate; try reflexivity;
  destruct (p1 cx); cbn in H; try discriminate; repeat (rewrite ?andb_false_r, ?orb_false_r in H; cbn in H); try discriminate.
Qed.

Lemma last_spaces l : Forall fine l -> forall cx cur, (lastc cx = WWSegSpace -> exists ks, ks <> [] /\ cur = bytes_of ks /\ Forall ws ks) ->
  WordLineProofs.last_class (lastc cx) l = WWSegSpace -> exists ps ks, seg_loop cx cur l = ps ++ [bytes_of ks] /\ ks <> [] /\ Forall ws ks.
Proof.
  induction 1 as [|[r b] l Fi _ IH]; intros cx cur Hc L.
  - destruct (Hc L) as (ks & N & -> & F). exists [], ks. cbn. auto.
  - cbn [seg_loop]. change (WordLineProofs.last_class (lastc cx) ((r, b) :: l)) with (WordLineProofs.last_class (wbc r) l) in L. rewrite <- (advance_lastc cx r) in L.
    destruct (boundary cx r l) eqn:B.
    + destruct (IH (advance cx r) b) as (ps & ks & E & N & F); [|exact L|].
      * rewrite advance_lastc. intros E. exists [(r, b)]. split; [discriminate|]. split; [unfold bytes_of; cbn; now rewrite sapp_nil_r|]. constructor; [apply Fi; exact E|constructor].
      * exists (cur :: ps), ks. rewrite E. auto.
    + apply IH; [|exact L]. rewrite advance_lastc. intros E. destruct (Hc (ws_joined _ _ _ E B)) as (ks & N & -> & F).
      exists (ks ++ [(r, b)]). split; [destruct ks; discriminate|]. split; [unfold bytes_of; rewrite map_app, GeneratorProofs.sconcat_app; cbn; now rewrite sapp_nil_r|].
      apply Forall_app. split; [exact F|]. constructor; [apply Fi; exact E|constructor].
Qed.

Lemma chunks_fine s : Forall fine (chunks s).
Proof.
  apply Forall_forall. intros [r b] I E. cbn [fst] in E. destruct (GeneratorProofs.chunk_view s r b I) as [[V Eb]|Er]; [repeat split; assumption|].
  exfalso. subst r. revert E. vm_compute. discriminate.
Qed.

Lemma ws_space r : wbc r = WWSegSpace -> uIsSpace go_unicode r = true.
Proof.
  intros E. destruct (WordLineProofs.lookup_class wb_ranges r WWSegSpace E ltac:(discriminate)) as (lo & hi & I & R).
  assert (T : forallb (fun x => match x with (lo, hi, WWSegSpace) => forallb (fun n => uIsSpace go_unicode (lo + N.of_nat n)%N) (seq 0 (N.to_nat (hi - lo + 1)%N)) | _ => true end) wb_ranges = true) by (vm_compute; reflexivity).
  rewrite forallb_forall in T. specialize (T _ I). cbn beta iota in T. rewrite forallb_forall in T. specialize (T (N.to_nat (r - lo)%N)).
  rewrite N2Nat.id in T. replace (lo + (r - lo))%N with r in T by lia. apply T. apply in_seq. lia.
Qed.

Lemma ws_chunks ks : Forall ws ks -> chunks (bytes_of ks) = ks.
Proof.
  induction 1 as [|[r b] l (E & V & Eb) _ IH]; [reflexivity|]. cbn [fst snd] in *. subst b. unfold bytes_of in *. cbn [map snd sconcat].
  rewrite encode_rune_valid by exact V. rewrite GeneratorProofs.chunks_enc by exact V. f_equal. exact IH.
Qed.

Lemma space_ready x sg : sg = "@"%string \/ sg = "#"%string -> ready_for go_unicode words_scan sg (x ++ " ").
Proof.
  intros Sg. right. assert (C : chunks (x ++ " ")%string = chunks x ++ [(32%N, " "%string)]) by (apply (GeneratorProofs.chunks_app x " "%string); reflexivity).
  pose proof (chunks_fine (x ++ " ")%string) as Fi. rewrite C in Fi.
  assert (L : exists ps ks, word_segments (x ++ " ")%string = ps ++ [bytes_of ks] /\ ks <> [] /\ Forall ws ks).
  { assert (O : forall r b, fine (r, b) -> wbc r = WWSegSpace -> exists ks, ks <> [] /\ b = bytes_of ks /\ Forall ws ks).
    { intros r b F E. exists [(r, b)]. split; [discriminate|]. split; [unfold bytes_of; cbn; now rewrite sapp_nil_r|]. constructor; [exact (F E)|constructor]. }
    unfold word_segments. rewrite C. destruct (chunks x) as [|[r b] l]; cbn [app] in *; inversion Fi; subst.
    - apply last_spaces; [constructor| |rewrite advance_lastc; vm_compute; reflexivity]. rewrite advance_lastc. now apply O.
    - apply last_spaces; [assumption| |rewrite WordLineProofs.last_class_snoc; vm_compute; reflexivity]. rewrite advance_lastc. now apply O. }
  destruct L as (ps & ks & E & N & F). pose proof (tokens_of go_unicode (x ++ " ")%string) as Y. rewrite E, map_app in Y. cbn [map] in Y.
  exists (map (piece_token go_unicode) ps), (piece_token go_unicode (bytes_of ks)). split; [exact Y|].
  pose proof (ws_chunks ks F) as K.
  assert (NE : bytes_of ks <> EmptyString) by (intros X; rewrite X in K; destruct ks; [congruence|discriminate]).
  pose proof (piece_token_ok go_unicode _ NE) as P.
  destruct (NewToken_class go_unicode _ _ _ eq_refl eq_refl P) as [_ S]. destruct (NewToken_value _ _ _ _ P) as (Val & _).
  split.
  - intros [_ W]. assert (T : tspace (piece_token go_unicode (bytes_of ks)) = true); [|congruence]. apply S. intros r I. rewrite <- chunks_runes, K in I.
    apply in_map_iff in I as ([r' b] & <- & I). rewrite Forall_forall in F. destruct (F _ I) as [X _]. apply ws_space. exact X.
  - intros X. rewrite Val in X. rewrite X in K. destruct ks as [|[r b] ks]; [congruence|]. apply Forall_inv in F as (X1 & _). cbn [fst] in X1.
    destruct Sg as [-> | ->]; vm_compute in K; injection K as <- _; revert X1; vm_compute; discriminate.
Qed.

(** ** Scripts whose letters stand apart *)

Definition picture_free (r : N) : Prop := range_mem ext_pict r = false.

Lemma other_boundary cx r l : wbc r = WOther -> picture_free r -> boundary cx r l = true.
Proof.
  intros E P. unfold boundary. unfold picture_free in P. rewrite E, P. cbn. destruct (lastc cx); cbn; try reflexivity;
  destruct (p1 cx); cbn; rewrite ?andb_false_r, ?orb_false_r; reflexivity.
Qed.

Lemma other_parts l x : In x (map fst l) -> wbc x = WOther -> picture_free x -> forall cx cur, (length (seg_loop cx cur l) > 1)%nat.
Proof.
  assert (P : forall l cx cur, (length (seg_loop cx cur l) > 0)%nat).
  { clear. induction l as [|[r b] l IH]; intros cx cur; cbn [seg_loop]; [cbn; lia|]. destruct (boundary cx r l); [cbn; lia|apply IH]. }
  intros I W F. induction l as [|[r b] l IH]; intros cx cur; [destruct I|]. cbn [seg_loop]. destruct (boundary cx r l) eqn:B.
  - cbn [length]. specialize (P l (advance cx r) b). lia.
  - destruct I as [<-|I]; [|now apply IH]. exfalso. cbn [fst] in B. rewrite other_boundary in B by assumption. discriminate.
Qed.

Lemma one_word_scripts p r rs x : word_segments p = [p] -> runes p = r :: rs -> In x rs -> picture_free x -> wbc x <> WOther.
Proof.
  intros W R I F E. rewrite <- chunks_runes in R. unfold word_segments in W. destruct (chunks p) as [|[r0 b] l]; [discriminate|]. cbn [map fst] in R. injection R as -> <-.
  pose proof (other_parts l x I E F (advance (mkCtx WOther WOther WOther false) r) b) as L. rewrite W in L. cbn in L. lia.
Qed.

Definition at_points (P : N -> bool) (l : list (N * N)) : bool :=
  forallb (fun p : N * N => forallb (fun n => P (fst p + N.of_nat n)%N) (seq 0 (N.to_nat (snd p - fst p + 1)%N))) l.

Lemma at_points_spec P l x : at_points P l = true -> range_mem l x = true -> P x = true.
Proof.
  intros T M. apply range_mem_In in M as (lo & hi & J & Q). unfold at_points in T. rewrite forallb_forall in T. specialize (T _ J). cbn [fst snd] in T.
  rewrite forallb_forall in T. specialize (T (N.to_nat (x - lo)%N)). rewrite N2Nat.id in T. replace (lo + (x - lo))%N with x in T by lia.
  apply T. apply in_seq. lia.
Qed.

Definition apart (x : N) : bool := (negb (range_mem gc_L x || range_mem gc_N x) || match wbc x with WOther => false | _ => true end)%bool.

Lemma pictures_apart : at_points apart ext_pict = true.
Proof. vm_compute. reflexivity. Qed.

Lemma legal_picture_free v x : legalHashtag go_unicode v = true -> In x (runes v) -> wbc x = WOther -> picture_free x.
Proof.
  intros L I W. unfold picture_free. destruct (range_mem ext_pict x) eqn:P; [|reflexivity]. exfalso.
  assert (C : range_mem gc_L x = true \/ range_mem gc_N x = true \/ x = 95%N).
  { apply C33_hashtag_lemma in L as [(r & R & L)|(_ & F)]; [rewrite R in I; destruct I as [I|[]]; rewrite <- I; left; exact L|]. rewrite Forall_forall in F. exact (F _ I). }
  pose proof (at_points_spec _ _ _ pictures_apart P) as T. unfold apart in T. rewrite W, orb_false_r in T. apply negb_true_iff, orb_false_iff in T as [T1 T2].
  destruct C as [C|[C|C]]; [rewrite C in T1; discriminate T1|rewrite C in T2; discriminate T2|]. rewrite C in W. vm_compute in W. discriminate W.
Qed.

Lemma joined_lemma U sg legal l l' : joined U sg legal l l' -> Forall (fun t => tlemma t = false) l ->
  forall t, In t l' -> tlemma t = true -> exists b, In b l /\ legal (tvalue b) = true /\ tvalue t = (sg ++ tvalue b)%string.
Proof.
  induction 1 as [|t l l' _ IH|c b m l l' _ Lb Lm _ IH]; intros F x I E; [destruct I| |].
  - inversion F; subst. destruct I as [<-|I]; [congruence|]. destruct (IH H2 x I E) as (b & J & R). exists b. split; [now right|exact R].
  - inversion F as [|? ? _ F']; subst. inversion F' as [|? ? _ F2]; subst. destruct I as [<-|I].
    + exists b. split; [right; now left|]. split; [exact Lb|]. apply Lm.
    + destruct (IH F2 x I E) as (b' & J & R). exists b'. split; [right; now right|exact R].
Qed.

Lemma C96_scripts_lemma s l t : Yields (Hashtags go_unicode (TokenizeString go_unicode words_scan s)) l -> In t l -> tlemma t = true ->
  forall r rs x, runes (tvalue t) = 35%N :: r :: rs -> In x rs -> wbc x <> WOther.
Proof.
  intros Y I L r rs x R J W. pose proof (tokens_of go_unicode s) as T.
  assert (Y2 : Yields (Hashtags go_unicode (TokenizeString go_unicode words_scan s)) (sigil_out go_unicode "#" (legalHashtag go_unicode) false None (map (piece_token go_unicode) (word_segments s)))) by (apply Sigil_yields; [discriminate|exact T]). pose proof (Yields_inj _ _ _ Y Y2) as ->.
  pose proof (sigil_out_joined go_unicode "#" (legalHashtag go_unicode) ltac:(discriminate) _ (map (piece_token go_unicode) (word_segments s)) None (le_n _)) as Jo.
  destruct (joined_lemma _ _ _ _ _ Jo) with (t := t) as (b & Ib & Lb & Vb); [|exact I|exact L|].
  - clear. pose proof (seg_some s) as F. induction F as [|p l N _ IH]; cbn [map]; constructor; [|exact IH]. destruct (NewToken_value _ _ _ _ (piece_token_ok go_unicode p N)) as (_ & B & _). exact B.
  - apply in_map_iff in Ib as (p & <- & Ip). destruct (NewToken_value _ _ _ _ (piece_token_ok go_unicode p (proj1 (Forall_forall _ _) (seg_some s) p Ip))) as (A & _). rewrite A in Lb, Vb.
    rewrite Vb in R. change (runes (String "#" p) = 35%N :: r :: rs) in R. assert (Rp : runes p = r :: rs) by (cbn in R; injection R; auto).
    apply in_split in Ip as (ps & qs & Es). pose proof (pieces_alone s ps [p] qs Es) as Al. cbn [sconcat] in Al. rewrite sapp_nil_r in Al.
    apply (one_word_scripts p r rs x Al Rp J); [|exact W]. apply (legal_picture_free p); [exact Lb|rewrite Rp; now right|exact W].
Qed.

(** ** Refutations, and between spaces *)

Lemma fresh_ready a sg : sg = "@"%string \/ sg = "#"%string -> fresh a -> ready_for go_unicode words_scan sg a.
Proof. intros S [->|(x & ->)]; [now left|now apply space_ready]. Qed.

Lemma C95_refutation : ~ (forall a name b, fresh a -> runes name <> [] -> Forall handle_rune (runes name) -> length (runes name) <= 15 ->
  ends_there handle_rune b -> lemma_between go_unicode words_scan (Handles go_unicode) a ("@" ++ name) b).
Proof.
  intros H. assert (F : Forall handle_rune (runes "bob")) by (change (runes "bob") with [98%N; 111%N; 98%N]; repeat constructor; unfold handle_rune; lia).
  specialize (H ""%string "bob"%string "'s"%string (or_introl eq_refl) ltac:(discriminate) F). 
  destruct (C95_exact go_unicode go_sane "" "bob" [98%N; 111%N] 98%N "'s" eq_refl F ltac:(cbn; lia)) as [X _].
  apply (X (or_introl eq_refl)).
  - apply H; [cbn; lia|]. unfold ends_there. change (runes "'s") with [39%N; 115%N]. unfold handle_rune. lia.
  - change (runes "'s") with [39%N; 115%N]. cbn [continues]. do 5 right. left. split; [vm_compute; auto|]. split; [vm_compute; auto|].
    apply FP_here; vm_compute; [intuition discriminate|auto].
Qed.

Lemma C96_refutation : ~ (forall a name b, fresh a -> name <> EmptyString -> legalHashtag go_unicode name = true ->
  ends_there (fun r => uIsLetter go_unicode r = true \/ uIsNumber go_unicode r = true \/ r = 95%N) b -> lemma_between go_unicode words_scan (Hashtags go_unicode) a ("#" ++ name) b).
Proof.
  intros H. specialize (H ""%string "東京"%string ""%string (or_introl eq_refl) ltac:(discriminate) eq_refl I).
  destruct H as (la & t & lb & Y & _ & (L & V & _)).
  pose proof (C96_scripts_lemma _ _ t Y ltac:(apply in_or_app; right; now left)) as C. 
  refine (C _ 26481%N [20140%N] 20140%N _ (or_introl eq_refl) _); [exact V|rewrite L; reflexivity|vm_compute; reflexivity].
Qed.

Lemma space_ends r0 y : ~ continues r0 (runes (" " ++ y)).
Proof.
  change (runes (" " ++ y)) with (32%N :: runes y). cbn [continues]. unfold mark, alphabetic, digit, connector, between_letters, between_digits.
  replace (wbc 32) with WWSegSpace by (vm_compute; reflexivity). cbn. intuition discriminate.
Qed.

Lemma spaced_end r0 b : b = EmptyString \/ (exists y, b = (" " ++ y)%string) -> ~ continues r0 (runes b).
Proof. intros [->|(y & ->)]; [intros []|apply space_ends]. Qed.

Lemma C95_spaced a name b : fresh a -> runes name <> [] -> Forall handle_rune (runes name) -> length (runes name) <= 15 ->
  b = EmptyString \/ (exists y, b = (" " ++ y)%string) -> lemma_between go_unicode words_scan (Handles go_unicode) a ("@" ++ name) b.
Proof.
  intros F N H L S. destruct (exists_last N) as (rs & r0 & E). apply (C95_exact go_unicode go_sane a name rs r0 b E H L).
  - apply fresh_ready; auto.
  - now apply spaced_end.
Qed.

Lemma C96_spaced a name b : fresh a -> name <> EmptyString -> legalHashtag go_unicode name = true -> Forall ordinary (runes name) ->
  b = EmptyString \/ (exists y, b = (" " ++ y)%string) -> lemma_between go_unicode words_scan (Hashtags go_unicode) a ("#" ++ name) b.
Proof.
  intros F N H O S. assert (N' : runes name <> []) by (rewrite <- chunks_runes; intros X; apply map_eq_nil, chunks_empty in X; contradiction).
  destruct (exists_last N') as (rs & r0 & E). apply (C96_exact go_unicode go_sane eq_refl eq_refl a name rs r0 b E H O).
  - apply fresh_ready; auto.
  - now apply spaced_end.
Qed.
