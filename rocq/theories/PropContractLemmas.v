(** * Lemmas behind C97 *)

From Verif Require Import Base Utf8 Unicode UnicodeData Token Stream StreamSpec Tokenizer Words WordSplit Filters ContractionsTable FilterSpec ExpandSpec TextSpec
  StreamProofs Utf8Proofs TokenProofs FilterProofs WordsProofs PropFiltersLemmas WordSplitProofs WordStable WordJoin PropExpandLemmas PropStableLemmas PropRetextLemmas WordAlone PropTextLemmas.
From Verif Require GeneratorProofs GenProofs.
Local Open Scope N_scope.

Local Opaque wbc.
Local Arguments wbc : simpl never.

(** ** Words with apostrophes *)

Lemma lower_quote x : L x = 39 -> x = 39.
Proof.
  intros E. pose proof lower_table as T. apply andb_prop in T as [T _].
  assert (F : Forall (fun x : N * N * N * Z => snd (fst x) <> 0) lower_runs).
  { apply Forall_forall. rewrite forallb_forall in T. intros y I. specialize (T y I). now apply negb_true_iff, N.eqb_neq in T. }
  assert (Q : forallb (fun x => negb (L x =? 39)) (lower_points lower_runs) = true) by (vm_cast_no_check (eq_refl true)).
  destruct (lower_point lower_runs F x) as [X|I]; [change (L x = x) in X; congruence|]. rewrite forallb_forall in Q. specialize (Q x I). rewrite E in Q. discriminate Q.
Qed.

Definition quote (r : N) : Prop := r = 39 \/ r = 8217.

Lemma straight_quote r : L (straight r) = 39 -> quote r.
Proof. intros H. apply lower_quote in H. unfold straight in H. destruct (N.eqb_spec r 8217); [now right|now left]. Qed.

(** Letters, and single quotes between them; [q]: the character before was a letter. *)
Fixpoint shaped (q : bool) (l : list N) : bool :=
  match l with
  | [] => q
  | r :: l => if az r then shaped true l else (q && (r =? 39) && shaped false l)%bool
  end.

Inductive shape : bool -> list N -> Prop :=
| SH_end : shape true []
| SH_letter q r l : letter r -> r <> RuneError -> shape true l -> shape q (r :: l)
| SH_quote r l : quote r -> shape false l -> shape true (r :: l).

Lemma shaped_shape l : forall q, shaped q (map (fun r => L (straight r)) l) = true -> shape q l.
Proof.
  induction l as [|r l IH]; intros q H; cbn [map shaped] in H; [subst q; constructor|].
  destruct (az (L (straight r))) eqn:A.
  - destruct (straight_letter r A). constructor; auto.
  - apply andb_prop in H as [H1 H2]. apply andb_prop in H1 as [-> H1]. apply N.eqb_eq in H1. constructor; [now apply straight_quote|auto].
Qed.

Lemma quote_class r : quote r -> wbc r = WSingleQuote \/ wbc r = WMidNumLet.
Proof. intros [-> | ->]; vm_compute; auto. Qed.

Definition here (q : bool) (c1 c2 : wbclass) : Prop :=
  if q then c1 = WALetter else (c1 = WSingleQuote \/ c1 = WMidNumLet) /\ c2 = WALetter.

Lemma shape_loop l : forall q c1 c2 cur, shape q (map fst l) -> here q c1 c2 -> seg_loop (mkCtx c1 c1 c2 false) cur l = [(cur ++ bytes_of l)%string].
Proof.
  induction l as [|[r b] l IH]; intros q c1 c2 cur S H; cbn [seg_loop]; [unfold bytes_of; cbn; now rewrite sapp_nil_r|].
  assert (X : boundary (mkCtx c1 c1 c2 false) r l = false /\ exists q', shape q' (map fst l) /\ here q' (wbc r) c1 /\ is_ign (wbc r) = false /\ match wbc r with WRI => true | _ => false end = false).
  { cbn [map fst] in S. inversion S as [|? ? ? Lr Nr Sl|? ? Qr Sl]; subst.
    - destruct Lr as [Lr Pr]. split; [|exists true; cbn; rewrite Lr; auto]. unfold boundary. rewrite Lr. cbn.
      destruct q; cbn in H; [subst c1; reflexivity|]. destruct H as [[-> | ->] ->]; reflexivity.
    - cbn in H. subst c1. assert (Nx : is_ahl (next_class l) = true).
      { destruct l as [|[r2 b2] l]; [cbn in Sl; inversion Sl|]. cbn [map fst] in Sl. inversion Sl as [|? ? ? [L2 _] _ _|]; subst. cbn [next_class]. rewrite L2. reflexivity. }
      split; [|exists false; cbn; destruct (quote_class r Qr) as [-> | ->]; auto].
      unfold boundary. destruct (quote_class r Qr) as [-> | ->]; cbn; rewrite Nx; reflexivity. }
  destruct X as (B & q' & S' & H' & I' & R'). rewrite B. replace (advance (mkCtx c1 c1 c2 false) r) with (mkCtx (wbc r) (wbc r) c1 false).
  - rewrite (IH q') by assumption. unfold bytes_of. cbn [map snd sconcat]. now rewrite sapp_assoc.
  - unfold advance. rewrite I'. cbn. destruct (wbc r); try reflexivity; discriminate.
Qed.

Lemma shape_word v : shape false (runes v) -> word_segments v = [v].
Proof.
  intros S. rewrite <- chunks_runes in S. pose proof (chunk_bytes v) as E. unfold word_segments. destruct (chunks v) as [|[r b] l] eqn:C; [inversion S|].
  cbn [map fst] in S. inversion S as [|? ? ? [Lr _] _ Sl|]; subst.
  replace (advance (mkCtx WOther WOther WOther false) r) with (mkCtx (wbc r) (wbc r) WOther false) by (unfold advance; rewrite Lr; reflexivity).
  rewrite (shape_loop l true) by (cbn; auto). reflexivity.
Qed.

Lemma shape_proper l : forall q, shape q l -> Forall (fun r => r <> RuneError) l.
Proof. induction 1 as [|q r l _ N _ IH|r l [-> | ->] _ IH]; constructor; auto; discriminate. Qed.

Lemma keys_shaped : forallb (fun kx : string * string => shaped false (spelling (fst kx))) contraction_mappings = true.
Proof. vm_cast_no_check (eq_refl true). Qed.

Lemma table_distinct : NoDup (map fst contraction_mappings).
Proof. apply GenProofs.nodupb_spec, GenProofs.table_nodup. Qed.

Lemma contraction_lookup v e : expansion go_unicode contraction_mappings v e <-> lookup v = Some e.
Proof. symmetry. apply lookup_expansion_spec, table_distinct. Qed.

Lemma contraction_facts v : contraction v -> shape false (runes v) /\ v <> EmptyString /\ fresh_start v /\ starts_letter (chunks v) /\ ends_letter (chunks v).
Proof.
  intros (e & H). apply contraction_lookup in H. destruct (lookup_key _ _ H) as (k & I & S).
  pose proof keys_shaped as T. rewrite forallb_forall in T. specialize (T _ I). cbn [fst] in T. rewrite <- S in T. split; [now apply shaped_shape|].
  split; [intros ->; discriminate T|]. pose proof rows_fine as T2. rewrite forallb_forall in T2. specialize (T2 _ I). unfold row_fine in T2. cbn [fst snd] in T2.
  apply andb_prop in T2 as [T2 _]. apply andb_prop in T2 as [T2 _]. apply andb_prop in T2 as [T2 _]. apply andb_prop in T2 as [T2 _]. rewrite <- S in T2. now apply lettered_chunks.
Qed.

Lemma where_lemma a v b rs r0 : contraction v -> runes v = rs ++ [r0] ->
  (stands a v b <-> ~ leads_into (rev (runes a)) /\ ~ continues r0 (runes b)) /\
  (stands a v b -> word_segments (a ++ v ++ b)%string = word_segments a ++ v :: word_segments b).
Proof.
  intros C E. destruct (contraction_facts v C) as (S & N & F & SL & EL).
  assert (Cb : chunks (v ++ b)%string = chunks v ++ chunks b) by (apply proper_app; eapply shape_proper; exact S).
  assert (Ca : chunks (a ++ v ++ b)%string = chunks a ++ chunks (v ++ b)%string) by (apply GeneratorProofs.chunks_app; destruct v; [congruence|exact F]).
  destruct (stands_join a v b N Ca Cb (shape_word v S) SL) as [J1 J2].
  assert (O : ordinary r0).
  { destruct EL as (m & r & x & X & Lr & _). assert (r = r0) as <-; [|left; symmetry; exact Lr]. apply (f_equal (map fst)) in X. rewrite chunks_runes, map_app, E in X. apply app_inj_tail in X as [_ X]. now symmetry. }
  rewrite (joint_before a v SL), (joint_after v r0 b (final_runes _ _ _ E) O) in J1. rewrite (joint_before a v SL), (joint_after v r0 b (final_runes _ _ _ E) O) in J2. split; [exact J1|].
  intros X. apply J1 in X as [X1 X2]. auto.
Qed.

Notation Expand := (Contractions go_unicode words_scan contraction_mappings).

Lemma expand_out s : Yields (Expand (TokenizeString go_unicode words_scan s)) (map (piece_token go_unicode) (flat_map ex (word_segments s))).
Proof.
  rewrite <- expand_pieces. apply Contractions_yields; [exact words_scan_ok|exact contraction_values_fine|]. apply tokens_of.
Qed.

Lemma C97_exact a v b rs r0 : contraction v -> runes v = rs ++ [r0] ->
  (token_between go_unicode words_scan a v b <-> ~ leads_into (rev (runes a)) /\ ~ continues r0 (runes b)).
Proof. intros C E. rewrite token_stands. exact (proj1 (where_lemma a v b rs r0 C E)). Qed.

Lemma C97_output a v e b oa oe ob : expansion go_unicode contraction_mappings v e -> token_between go_unicode words_scan a v b ->
  Yields (Expand (TokenizeString go_unicode words_scan a)) oa -> Yields (TokenizeString go_unicode words_scan e) oe -> Yields (Expand (TokenizeString go_unicode words_scan b)) ob ->
  Yields (Expand (TokenizeString go_unicode words_scan (a ++ v ++ b))) (oa ++ oe ++ ob).
Proof.
  intros He T Ya Ye Yb. assert (C : contraction v) by (exists e; exact He). destruct (contraction_facts v C) as (S & N & _). apply token_stands in T.
  assert (NR : runes v <> []) by (intros X; rewrite X in S; inversion S). destruct (exists_last NR) as (rs & r0 & E).
  pose proof (proj2 (where_lemma a v b rs r0 C E) T) as W. rewrite (Yields_inj _ _ _ Ya (expand_out a)), (Yields_inj _ _ _ Yb (expand_out b)), (Yields_inj _ _ _ Ye (tokens_of go_unicode e)).
  pose proof (expand_out (a ++ v ++ b)%string) as Y. rewrite W, flat_map_app in Y. cbn [flat_map] in Y. rewrite !map_app in Y.
  apply contraction_lookup in He. assert (X : ex v = word_segments e) by (unfold ex; now rewrite He, seg_word). rewrite X in Y. exact Y.
Qed.

Lemma C97_refutation : ~ (forall a v b, fresh a -> contraction v -> ends_there alphabetic b -> token_between go_unicode words_scan a v b).
Proof.
  intros H. assert (C : contraction "can't"%string) by (exists "can not"%string; apply contraction_lookup; vm_compute; reflexivity).
  specialize (H ""%string "can't"%string ".He"%string (or_introl eq_refl) C). apply (C97_exact _ _ _ [99; 97; 110; 39] 116 C eq_refl) in H.
  - destruct H as [_ H]. apply H. change (runes ".He") with [46; 72; 101]. cbn [continues]. do 5 right. left. split; [vm_compute; auto|]. split; [vm_compute; auto|].
    apply FP_here; vm_compute; [intuition discriminate|auto].
  - unfold ends_there. change (runes ".He") with [46; 72; 101]. vm_compute. intuition discriminate.
Qed.

Lemma not_leading a : fresh a -> ~ leads_into (rev (runes a)).
Proof.
  intros [->|(x & ->)]; [intros H; inversion H|].
  assert (R : runes (x ++ " ") = runes x ++ [32]) by (rewrite <- !chunks_runes, (GeneratorProofs.chunks_app x " "%string) by reflexivity; now rewrite map_app).
  rewrite R, rev_unit. intros H. assert (W : wbc 32 = WWSegSpace) by (vm_compute; reflexivity).
  inversion H as [? ? M _|? ? M|? ? M _]; subst; unfold mark, alphabetic, digit, connector, between_letters in M; rewrite W in M; cbn in M; intuition discriminate.
Qed.

Lemma C97_spaced a v b : fresh a -> contraction v -> b = EmptyString \/ (exists y, b = (" " ++ y)%string) -> token_between go_unicode words_scan a v b.
Proof.
  intros F C S. destruct (contraction_facts v C) as (Sh & _). assert (NR : runes v <> []) by (intros X; rewrite X in Sh; inversion Sh). destruct (exists_last NR) as (rs & r0 & E).
  apply (C97_exact a v b rs r0 C E). split; [now apply not_leading|now apply spaced_end].
Qed.
