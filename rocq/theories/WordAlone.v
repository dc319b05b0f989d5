(** * WordAlone: when a word stands alone in a text, for C95 - C97. *)

From Verif Require Import Base Utf8 Unicode UnicodeData Token Stream StreamSpec Tokenizer Words WordSplit FilterSpec TextSpec
  StreamProofs Utf8Proofs FilterProofs WordsProofs WordSplitProofs WordStable WordJoin PropRetextLemmas.
From Verif Require GeneratorProofs.

Local Opaque wbc.
Local Arguments wbc : simpl never.

(** ** Bytes *)

Lemma chunk_bytes s : bytes_of (chunks s) = s.
Proof. pose proof (chunks_prefix (chunks s) s [] ltac:(now rewrite app_nil_r)) as (_ & s2 & E & C). apply chunks_empty in C. subst s2. rewrite sapp_nil_r in E. now symmetry. Qed.

Lemma proper_encode s : Forall (fun r => r <> RuneError) (runes s) -> s = encode (runes s) /\ Forall (fun r => valid_rune r = true) (runes s).
Proof.
  intros H. split; [|apply runes_valid]. rewrite <- (chunk_bytes s) at 1. rewrite <- chunks_runes in H |- *.
  assert (V : forall r b, In (r, b) (chunks s) -> b = encode_rune r).
  { intros r b I. destruct (GeneratorProofs.chunk_view s r b I) as [[_ E]|E]; [exact E|]. rewrite Forall_forall in H. exfalso. apply (H r); [|exact E].
    apply in_map_iff. exists (r, b). auto. }
  unfold bytes_of. induction (chunks s) as [|[r b] l IH]; [reflexivity|]. cbn [map fst snd sconcat encode]. rewrite (V r b) by now left. f_equal.
  apply IH; [now inversion H|]. intros r' b' I. apply V. now right.
Qed.

Lemma proper_app s b : Forall (fun r => r <> RuneError) (runes s) -> chunks (s ++ b)%string = chunks s ++ chunks b.
Proof.
  intros H. destruct (proper_encode s H) as [E V]. rewrite E at 1 2. rewrite GeneratorProofs.chunks_encode_app by exact V. f_equal.
  rewrite <- (sapp_nil_r (encode (runes s))), GeneratorProofs.chunks_encode_app by exact V. now rewrite app_nil_r.
Qed.

(** ** Classes *)

Lemma mark_ign r : mark r <-> is_ign (wbc r) = true.
Proof. unfold mark. destruct (wbc r); cbn; intuition congruence. Qed.
Lemma alphabetic_ahl r : alphabetic r <-> is_ahl (wbc r) = true.
Proof. unfold alphabetic. destruct (wbc r); cbn; intuition congruence. Qed.
Lemma digit_num r : digit r <-> is_num (wbc r) = true.
Proof. unfold digit. destruct (wbc r); cbn; intuition congruence. Qed.
Lemma connector_exn r : connector r <-> is_exn (wbc r) = true.
Proof. unfold connector. destruct (wbc r); cbn; intuition congruence. Qed.
Lemma between_mid r : between_letters r <-> is_mid (wbc r) = true.
Proof. unfold between_letters. destruct (wbc r); cbn; intuition congruence. Qed.
Lemma between_midn r : between_digits r <-> is_midn (wbc r) = true.
Proof. unfold between_digits. destruct (wbc r); cbn; intuition congruence. Qed.

Lemma first_next (P : N -> Prop) (p : wbclass -> bool) l : p WOther = false -> (forall r, P r <-> p (wbc r) = true) ->
  first_proper P (map fst l) <-> p (next_class l) = true.
Proof.
  intros O H. induction l as [|[r b] l IH]; cbn [map fst next_class].
  - rewrite O. split; [intros F; inversion F|discriminate].
  - destruct (is_ign (wbc r)) eqn:I.
    + assert (M : mark r) by now apply mark_ign. rewrite <- IH. split; [intros F; inversion F; subst; [contradiction|assumption]|intros F; now apply FP_mark].
    + assert (M : ~ mark r) by (rewrite mark_ign; congruence). rewrite <- H. split; [intros F; inversion F; subst; [assumption|contradiction]|intros F; now apply FP_here].
Qed.

(** ** The right end *)

(** The last character. *)
Definition final (l : list (N * string)) (r : N) : Prop := exists m x, l = m ++ [(r, x)].

Lemma final_ctx l r : final l r -> ordinary r -> exists c, ctx_after start_ctx l = mkCtx (wbc r) (wbc r) c false.
Proof.
  intros (m & x & ->) O. unfold ctx_after. rewrite fold_left_app. cbn [fold_left fst]. unfold advance.
  destruct O as [O|[O|[O|[]]]]; rewrite <- O; cbn; eauto.
Qed.

Lemma after_ordinary r0 c r l : ordinary r0 -> (boundary (mkCtx (wbc r0) (wbc r0) c false) r l = false <-> continues r0 (r :: map fst l)).
Proof.
  intros O. unfold continues. rewrite mark_ign, alphabetic_ahl, digit_num, !connector_exn, (alphabetic_ahl r0), (digit_num r0), between_mid, between_midn.
  rewrite (first_next alphabetic is_ahl) by (reflexivity || apply alphabetic_ahl). rewrite (first_next digit is_num) by (reflexivity || apply digit_num).
  assert (K : wbc r = WKatakana <-> is_kat (wbc r) = true) by (destruct (wbc r); cbn; intuition congruence). rewrite K. clear K.
  destruct O as [O|[O|[O|[]]]]; rewrite <- O; unfold boundary; cbn [lastc p1 p2 odd_ri is_nl is_ws is_ahl is_mid is_heb is_dq is_num is_midn is_kat is_exn is_ri andb orb];
    rewrite ?andb_false_r; destruct (wbc r); cbn; try destruct (is_ahl (next_class l)); try destruct (is_num (next_class l)); cbn; intuition congruence.
Qed.

Lemma joint_after v r0 b : final (chunks v) r0 -> ordinary r0 -> (joint (chunks v) (chunks b) <-> ~ continues r0 (runes b)).
Proof.
  intros F O. destruct (final_ctx _ _ F O) as (c & C). unfold joint. rewrite <- chunks_runes. destruct (chunks b) as [|[r x] l]; [cbn; tauto|].
  rewrite C. cbn [map fst]. rewrite <- (after_ordinary r0 c r l O). destruct (boundary _ r l); intuition congruence.
Qed.

(** ** The left end *)

Definition test (c : wbclass) : bool * bool * bool * bool := (is_ahl c, is_num c, is_exn c, is_mid c).

(** The last character that is not a mark and what comes before it. *)
Fixpoint skip (l : list N) : list N := match l with [] => [] | r :: l' => if is_ign (wbc r) then skip l' else l end.
Definition class1 (l : list N) : wbclass := match skip l with [] => WOther | r :: _ => wbc r end.
Definition class2 (l : list N) : wbclass := match skip l with [] => WOther | _ :: l' => class1 l' end.

Lemma nl_test c : is_nl c = true -> test c = test WOther.
Proof. destruct c; cbn; intros; try discriminate; reflexivity. Qed.
Lemma ign_test c : is_ign c = true -> test c = test WOther.
Proof. destruct c; cbn; intros; try discriminate; reflexivity. Qed.

Lemma left_ctx l : let cx := ctx_after start_ctx l in let k := rev (map fst l) in
  lastc cx = match k with [] => WOther | r :: _ => wbc r end /\ test (p1 cx) = test (class1 k) /\
  (is_mid (p1 cx) = true -> test (p2 cx) = test (class2 k)).
Proof.
  induction l as [|[r x] l IH] using rev_ind; [cbn; auto|]. cbv zeta in *. unfold ctx_after in *. rewrite fold_left_app, map_app, rev_app_distr. cbn [map rev app fold_left fst].
  set (cx := fold_left (fun c rb => advance c (fst rb)) l start_ctx) in *. set (k := rev (map fst l)) in *. destruct IH as (I0 & I1 & I2).
  unfold advance. destruct (is_ign (wbc r)) eqn:Ig; cbn [andb].
  - unfold class1, class2. cbn [skip]. rewrite Ig. destruct (is_nl (lastc cx)) eqn:Nl; cbn [negb lastc p1 p2]; [|auto].
    split; [reflexivity|]. split; [|intros M; destruct (wbc r); discriminate]. rewrite (ign_test _ Ig).
    destruct k as [|q k]; [reflexivity|]. rewrite I0 in Nl. cbn [skip]. replace (is_ign (wbc q)) with false by (destruct (wbc q); cbn in *; congruence).
    now rewrite (nl_test _ Nl).
  - cbn [lastc p1 p2]. unfold class1, class2. cbn [skip]. rewrite Ig. auto.
Qed.

Lemma first_class1 l : first_proper alphabetic l <-> is_ahl (class1 l) = true.
Proof.
  unfold class1. induction l as [|r l IH]; cbn [skip]; [split; [intros F; inversion F|discriminate]|]. destruct (is_ign (wbc r)) eqn:I.
  - assert (M : mark r) by now apply mark_ign. rewrite <- IH. split; [intros F; inversion F; subst; [contradiction|assumption]|intros F; now apply FP_mark].
  - assert (M : ~ mark r) by (rewrite mark_ign; congruence). rewrite <- alphabetic_ahl. split; [intros F; inversion F; subst; [assumption|contradiction]|intros F; now apply FP_here].
Qed.

Lemma leads_class l : leads_into l <->
  (is_ahl (class1 l) || is_num (class1 l) || is_exn (class1 l) || is_mid (class1 l) && is_ahl (class2 l))%bool = true.
Proof.
  unfold class1 at 1 2 3 4, class2. induction l as [|r l IH]; cbn [skip]; [split; [intros H; inversion H|discriminate]|]. destruct (is_ign (wbc r)) eqn:I.
  - rewrite <- IH. assert (M : mark r) by now apply mark_ign. split; [|intros F; now apply LI_mark].
    intros F. inversion F as [? ? _ H|? ? H|? ? H _]; subst; [exact H| |]; exfalso.
    + rewrite alphabetic_ahl, digit_num, connector_exn in H. destruct (wbc r); cbn in *; intuition congruence.
    + rewrite between_mid in H. destruct (wbc r); cbn in *; congruence.
  - rewrite !orb_true_iff, andb_true_iff, <- first_class1, <- alphabetic_ahl, <- digit_num, <- connector_exn, <- between_mid. split.
    + intros F. inversion F as [? ? M _|? ? H|? ? H1 H2]; subst; [apply mark_ign in M; congruence|tauto|tauto].
    + intros [[[H|H]|H]|[H1 H2]]; [apply LI_letter; auto|apply LI_letter; auto|apply LI_letter; auto|apply LI_between; auto].
Qed.

Lemma before_letter l r m : letter r -> (boundary (ctx_after start_ctx l) r m = false <-> leads_into (rev (map fst l))).
Proof.
  intros [E X]. pose proof (left_ctx l) as (I0 & I1 & I2). cbv zeta in *. rewrite leads_class. set (cx := ctx_after start_ctx l) in *. set (k := rev (map fst l)) in *.
  injection I1 as A1 A2 A3 A4. rewrite <- A1, <- A2, <- A3, <- A4.
  assert (N : is_nl (lastc cx) = true -> test (p1 cx) = test WOther).
  { intros N. unfold test. rewrite A1, A2, A3, A4. unfold class1. destruct k as [|q k]; [reflexivity|]. rewrite I0 in N. cbn [skip].
    replace (is_ign (wbc q)) with false by (destruct (wbc q); cbn in *; congruence). exact (nl_test _ N). }
  unfold boundary. rewrite E, X. clear E X. cbn [is_nl is_ws is_ign is_ahl is_mid is_sq is_dq is_heb is_num is_midn is_kat is_exn is_ri andb orb].
  destruct (is_nl (lastc cx)) eqn:Nl.
  - specialize (N eq_refl). injection N as -> -> -> ->. destruct (lastc cx); cbn; intuition congruence.
  - destruct (is_mid (p1 cx)) eqn:M.
    + specialize (I2 eq_refl). injection I2 as B1 _ _ _. rewrite <- B1. clear - Nl M. rewrite ?andb_false_r. destruct (lastc cx); try discriminate; destruct (p1 cx); try discriminate; cbn; destruct (is_ahl (p2 cx)); cbn; intuition congruence.
    + clear - Nl M. rewrite ?andb_false_r. destruct (lastc cx); try discriminate; destruct (p1 cx); try discriminate; cbn; rewrite ?andb_false_r; cbn; intuition congruence.
Qed.

Lemma joint_before a v : starts_letter (chunks v) -> (joint (chunks a) (chunks v) <-> ~ leads_into (rev (runes a))).
Proof.
  intros (r & x & m & E & Lr). rewrite E. cbn [joint]. rewrite <- chunks_runes, <- (before_letter (chunks a) r m Lr). destruct (boundary _ r m); intuition congruence.
Qed.

(** ** Words *)

Definition stands (a v b : string) : Prop := exists ps qs, word_segments (a ++ v ++ b)%string = ps ++ v :: qs /\ sconcat ps = a.

Lemma token_stands U a v b : token_between U words_scan a v b <-> stands a v b.
Proof.
  pose proof (TokenizeString_yields U words_scan words_scan_ok (a ++ v ++ b)%string eq_refl) as Y. rewrite (seg_word (a ++ v ++ b)%string) in Y. split.
  - intros (la & t & lb & Y2 & T & V). pose proof (Yields_inj _ _ _ Y Y2) as E. exists (map tvalue la), (map tvalue lb). split; [|exact T].
    rewrite <- (piece_tokens_value U (word_segments _)), E, map_app. cbn [map]. now rewrite V.
  - intros (ps & qs & E & C). rewrite E, map_app in Y. cbn [map] in Y. eexists _, _, _. split; [exact Y|]. split; [now rewrite text_pieces|apply piece_token_value].
Qed.

Lemma stands_first v b : v <> EmptyString -> chunks (v ++ b)%string = chunks v ++ chunks b -> word_segments v = [v] ->
  ((exists qs, word_segments (v ++ b)%string = v :: qs) <-> joint (chunks v) (chunks b)).
Proof.
  intros N C W. split.
  - intros (qs & E). destruct (first_joint _ _ _ E) as (s' & A & _ & _ & J & _). apply sapp_inv_head in A. now subst s'.
  - intros J. exists (word_segments b). rewrite segments_join; [now rewrite W|exact C| |exact J]. intros H. now apply chunks_empty in H.
Qed.

Lemma joint_more a v b : chunks v <> [] -> word_segments v = [v] -> chunks (v ++ b)%string = chunks v ++ chunks b ->
  joint (chunks v) (chunks b) -> joint (chunks a) (chunks v) -> starts_letter (chunks v) -> joint (chunks a) (chunks (v ++ b)%string).
Proof.
  intros N W C J1 J2 (r & x & m & E & Lr). rewrite C, E in *. cbn [app joint] in *. rewrite <- J2. apply boundary_ahead. destruct Lr as [Lr _]. rewrite Lr. discriminate.
Qed.

Lemma stands_join a v b : v <> EmptyString -> chunks (a ++ v ++ b)%string = chunks a ++ chunks (v ++ b)%string -> chunks (v ++ b)%string = chunks v ++ chunks b ->
  word_segments v = [v] -> starts_letter (chunks v) ->
  (stands a v b <-> joint (chunks a) (chunks v) /\ joint (chunks v) (chunks b)) /\
  (joint (chunks a) (chunks v) -> joint (chunks v) (chunks b) -> word_segments (a ++ v ++ b)%string = word_segments a ++ v :: word_segments b).
Proof.
  intros N C1 C2 W S.
  assert (Nv : chunks v <> []) by (intros H; now apply chunks_empty in H).
  assert (F : joint (chunks a) (chunks v) -> joint (chunks v) (chunks b) -> word_segments (a ++ v ++ b)%string = word_segments a ++ v :: word_segments b).
  { intros J1 J2. assert (E : word_segments (v ++ b)%string = v :: word_segments b) by (rewrite segments_join; [now rewrite W|exact C2|exact Nv|exact J2]).
    assert (D : chunks a = [] \/ chunks a <> []) by (destruct (chunks a); [now left|right; discriminate]). destruct D as [Ca|Ca].
    - apply chunks_empty in Ca. subst a. exact E.
    - rewrite <- E. apply segments_join; [exact C1|exact Ca|]. apply joint_more; auto. }
  split; [|exact F]. split.
  - intros (ps & qs & E & T). destruct (later_pieces ps _ _ E) as (s' & E' & A). rewrite T in A. apply sapp_inv_head in A. subst s'.
    split; [|apply stands_first; eauto].
    destruct (chunks a) as [|c l] eqn:Ca; [destruct S as (r & x & m & -> & Lr); cbn [joint ctx_after fold_left]; unfold boundary; destruct Lr as [Lr X]; rewrite Lr, X; reflexivity|].
    assert (Nps : ps <> []) by (intros ->; cbn in T; subst a; discriminate).
    unfold word_segments in E. rewrite C1 in E. cbn [app] in E. destruct c as [r0 b0].
    destruct (first_pieces _ _ _ ps (v :: qs) E Nps) as (l1 & l2 & El & _ & Ec & R).
    rewrite T in Ec. assert (El1 : l1 = l).
    { assert (B : bytes_of ((r0, b0) :: l1) = a) by (unfold bytes_of; cbn [map snd sconcat]; symmetry; exact Ec).
      assert (Cs : chunks (a ++ v ++ b)%string = ((r0, b0) :: l1) ++ l2) by (rewrite C1; cbn [app]; now rewrite El).
      destruct (chunks_prefix _ _ _ Cs) as (H & _). rewrite B, Ca in H. now injection H as H. }
    subst l1. apply app_inv_head in El. destruct S as (r & x & m & Ev & Lr). rewrite C2, Ev in El. cbn [app] in El. subst l2.
    rewrite Ev. cbn [joint]. unfold ctx_after in *. cbn [fold_left fst] in *. rewrite <- R. apply boundary_ahead. destruct Lr as [Lr _]. rewrite Lr. discriminate.
  - intros [J1 J2]. exists (word_segments a), (word_segments b). split; [now apply F|apply word_segments_ok].
Qed.
