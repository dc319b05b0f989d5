(** * PropCaseLemmas: texts in capital letters (C94). *)

From Verif Require Import Base Utf8 Unicode UnicodeData UpperTable Token Stream StreamSpec Tokenizer Words Filters ContractionsTable Trie Synonyms FilterSpec
  SynSpec ChainSpec LineSpec DictSpec ExpandSpec OrderSpec CaseSpec StreamProofs TokenProofs Utf8Proofs AsciiProofs FilterProofs WordsProofs WordSplitProofs PropLongLemmas WordStable
  Sources PropFiltersLemmas PropExpandLemmas PropOrderLemmas PropRetextLemmas PropRefoldLemmas PropComposeLemmas.
Local Open Scope N_scope.

Local Notation C := capital.

(** ** The tables *)

Definition secondb (r : N) : bool := existsb (N.eqb r) second_letters.

Lemma secondb_In r : secondb r = true <-> In r second_letters.
Proof.
  unfold secondb. rewrite existsb_exists. split; [|intros I; exists r; split; [exact I|apply N.eqb_refl]].
  intros (x & I & E). apply N.eqb_eq in E. now subst.
Qed.

Definition same_flags (x y : N) : bool :=
  Bool.eqb (uIsPunct go_unicode x) (uIsPunct go_unicode y) && Bool.eqb (uIsSpace go_unicode x) (uIsSpace go_unicode y) &&
  Bool.eqb (spaceIsPunct x) (spaceIsPunct y).

Definition wb_eqb (a b : wbclass) : bool := if (fun a b : wbclass => ltac:(decide equality) : {a = b} + {a <> b}) a b then true else false.

Lemma wb_eqb_eq a b : wb_eqb a b = true -> a = b.
Proof. unfold wb_eqb. match goal with |- context [if ?x then _ else _] => destruct x end; congruence. Qed.

Definition same_breaks (x y : N) : bool := wb_eqb (wbc x) (wbc y) && Bool.eqb (range_mem ext_pict x) (range_mem ext_pict y).

Definition capital_fine (x : N) : bool :=
  valid_rune (C x) && Bool.eqb (L (C x) =? L x) (negb (secondb x)) && same_flags (C x) x && ((x =? 837) || (x =? 9436) || same_breaks (C x) x)
  && negb (C x =? 39) && negb (C x =? 8217) && negb (x =? 8217).

Lemma capital_table : forallb (fun x : N * N * N * Z => negb (snd (fst x) =? 0)) upper_runs && forallb capital_fine (lower_points upper_runs)
  && forallb (fun r => existsb (N.eqb r) (lower_points upper_runs)) second_letters = true.
Proof. vm_cast_no_check (eq_refl true). Qed.

Local Opaque lower_lookup range_mem wb_lookup wbc capital uToLower uIsPunct uIsSpace.

Lemma capital_cases x : (C x = x /\ secondb x = false) \/ capital_fine x = true.
Proof.
  pose proof capital_table as T. apply andb_prop in T as [T T3]. apply andb_prop in T as [T1 T2]. rewrite forallb_forall in T2.
  assert (F : Forall (fun x : N * N * N * Z => snd (fst x) <> 0) upper_runs).
  { apply Forall_forall. rewrite forallb_forall in T1. intros y I. specialize (T1 y I). now apply negb_true_iff, N.eqb_neq in T1. }
  destruct (secondb x) eqn:S.
  { right. apply T2. apply secondb_In in S. rewrite forallb_forall in T3. specialize (T3 _ S). apply existsb_exists in T3 as (y & I & E).
    apply N.eqb_eq in E. now subst. }
  destruct (lower_point upper_runs F x) as [E|I]; [left; split; [exact E|reflexivity]|right; exact (T2 x I)].
Qed.

Lemma capital_valid x : valid_rune x = true -> valid_rune (C x) = true.
Proof. intros V. destruct (capital_cases x) as [[E _]|H]; [now rewrite E|]. unfold capital_fine in H. rewrite !andb_true_iff in H. tauto. Qed.

Lemma lower_capital x : L (C x) = L x <-> ~ In x second_letters.
Proof.
  rewrite <- secondb_In. destruct (capital_cases x) as [[E S]|H]; [rewrite E, S; split; [discriminate|reflexivity]|].
  unfold capital_fine in H. rewrite !andb_true_iff in H. destruct H as [[[[[[_ H] _] _] _] _] _]. apply eqb_prop in H.
  destruct (N.eqb_spec (L (C x)) (L x)); destruct (secondb x); cbn in H; try discriminate; split; congruence.
Qed.

Lemma capital_flags x : isPunct go_unicode (C x) = isPunct go_unicode x /\ uIsSpace go_unicode (C x) = uIsSpace go_unicode x.
Proof.
  destruct (capital_cases x) as [[E _]|H]; [rewrite E; auto|].
  unfold capital_fine in H. rewrite !andb_true_iff in H. destruct H as [[[[[_ H] _] _] _] _]. unfold same_flags in H. rewrite !andb_true_iff in H.
  destruct H as [[H1 H2] H3]. apply eqb_prop in H1, H2, H3. unfold isPunct. now rewrite H1, H2, H3.
Qed.

Lemma capital_breaks x : x <> 837 -> x <> 9436 -> wbc (C x) = wbc x /\ range_mem ext_pict (C x) = range_mem ext_pict x.
Proof.
  intros N1 N2. destruct (capital_cases x) as [[E _]|H]; [rewrite E; auto|].
  unfold capital_fine in H. rewrite !andb_true_iff in H. destruct H as [[[[_ H] _] _] _].
  apply orb_prop in H as [H|H]; [apply orb_prop in H as [H|H]; apply N.eqb_eq in H; contradiction|].
  unfold same_breaks in H. apply andb_prop in H as [H1 H2]. split; [exact (wb_eqb_eq _ _ H1)|exact (eqb_prop _ _ H2)].
Qed.

Lemma capital_apostrophe x : (C x = 8217 <-> x = 8217).
Proof.
  destruct (capital_cases x) as [[E _]|H]; [now rewrite E|].
  unfold capital_fine in H. rewrite !andb_true_iff, !negb_true_iff, !N.eqb_neq in H. tauto.
Qed.

(** ** Texts *)

Lemma capitals_runes v : runes (capitals v) = map C (runes v).
Proof.
  unfold capitals. apply runes_encode_valid. apply Forall_forall. intros y I. apply in_map_iff in I as (x & <- & I).
  apply capital_valid. pose proof (runes_valid v) as V. rewrite Forall_forall in V. auto.
Qed.

Lemma lower_same v : map L (runes (capitals v)) = map L (runes v) <-> first_letters v.
Proof.
  rewrite capitals_runes, map_map. unfold first_letters. induction (runes v) as [|r rs IH]; [split; [constructor|reflexivity]|].
  cbn [map]. split.
  - intros E. injection E as E1 E2. constructor; [now apply lower_capital|now apply IH].
  - intros F. inversion F as [|? ? F1 F2]; subst. apply lower_capital in F1. apply IH in F2. congruence.
Qed.

Lemma key_same v : strings_ToLower go_unicode (capitals v) = strings_ToLower go_unicode v <-> first_letters v.
Proof.
  rewrite <- lower_same. destruct (lower_runes v) as [R1 E1], (lower_runes (capitals v)) as [R2 E2]. split; intros H.
  - now rewrite <- R1, <- R2, H.
  - now rewrite E1, E2, H.
Qed.

(** ** Stop words *)

Lemma stop_pred_capitals words t u : in_capitals t u -> first_letters (tvalue t) ->
  stop_pred go_unicode words true u = stop_pred go_unicode words true t.
Proof. intros (V & _) F. unfold stop_pred, stop_key. rewrite V. now rewrite (proj2 (key_same (tvalue t)) F). Qed.

Lemma C94_stopwords words s1 l1 s2 l2 : Yields s1 l1 -> Yields s2 l2 -> Forall2 in_capitals l1 l2 -> Forall (fun t => first_letters (tvalue t)) l1 ->
  exists o1 o2, Yields (Stopwords go_unicode words true s1) o1 /\ Yields (Stopwords go_unicode words true s2) o2 /\ Forall2 in_capitals o1 o2.
Proof.
  intros Y1 Y2 F G. exists (filter (stop_pred go_unicode words true) l1), (filter (stop_pred go_unicode words true) l2).
  split; [now apply Stopwords_yields|]. split; [now apply Stopwords_yields|]. clear Y1 Y2.
  induction F as [|t u l1 l2 H F IH]; [constructor|]. inversion G as [|? ? G1 G2]; subst. cbn [filter]. rewrite (stop_pred_capitals words t u H G1).
  destruct (stop_pred go_unicode words true t); [constructor; auto|auto].
Qed.

Lemma drops words s t : Yields s [t] -> (Yields (Stopwords go_unicode words true s) [] <-> stop_pred go_unicode words true t = false).
Proof.
  intros Y. pose proof (Stopwords_yields go_unicode words true s [t] Y) as Z. cbn [filter] in Z.
  destruct (stop_pred go_unicode words true t); split; intros H; try congruence. pose proof (Yields_inj _ _ _ H Z). discriminate.
Qed.

Lemma C94_stopwords_exact t u : in_capitals t u ->
  ((forall words s1 s2, Yields s1 [t] -> Yields s2 [u] ->
      (Yields (Stopwords go_unicode words true s1) [] <-> Yields (Stopwords go_unicode words true s2) [])) <-> first_letters (tvalue t)).
Proof.
  intros I. split.
  - intros H. specialize (H [tvalue t] (source [t] None) (source [u] None) (source_yields [t]) (source_yields [u])).
    rewrite (drops _ _ _ (source_yields [t])), (drops _ _ _ (source_yields [u])) in H. apply key_same. destruct I as (V & _).
    unfold stop_pred, stop_key, smem in H. rewrite V in H. cbn [map existsb] in H. rewrite !orb_false_r, !negb_false_iff, !seqb_eq in H. now apply H.
  - intros F words s1 s2 Y1 Y2. rewrite (drops _ _ _ Y1), (drops _ _ _ Y2). now rewrite (stop_pred_capitals words t u I F).
Qed.

(** ** Synonyms, contractions *)

Lemma similar_capitals ig t u : in_capitals t u -> first_letters (tvalue t) -> similar go_unicode true ig t u.
Proof.
  intros (V & P & S & _) F. split; [now symmetry|]. split; [now symmetry|]. unfold letters. f_equal. rewrite V. symmetry. now apply lower_same.
Qed.

Lemma Forall2_upgrade {A B} (P : A -> Prop) (R Q : A -> B -> Prop) : (forall a b, R a b -> P a -> Q a b) ->
  forall l m, Forall2 R l m -> Forall P l -> Forall2 Q l m.
Proof. intros H l m F G. induction F; inversion G; subst; constructor; auto. Qed.

Lemma C94_synonyms (scan : oracle) : scanner_ok scan ->
  forall ms ig D b, dictionary_of (key_tokens go_unicode scan) ms D -> built_from go_unicode scan ms true ig b ->
  forall s1 l1 s2 l2, Yields s1 l1 -> Yields s2 l2 -> Forall2 in_capitals l1 l2 -> Forall (fun t => first_letters (tvalue t)) l1 ->
  exists o1 o2, Yields (SynFilter go_unicode None b s1) o1 /\ Yields (SynFilter go_unicode None b s2) o2 /\ same_replacements go_unicode l1 l2 o1 o2.
Proof.
  intros SC ms ig D b HD HB s1 l1 s2 l2 Y1 Y2 F G. apply (C72_lemma go_unicode scan SC eq_refl ms true ig D b HD HB s1 l1 s2 l2 Y1 Y2).
  exact (Forall2_upgrade _ _ _ (similar_capitals ig) _ _ F G).
Qed.

Lemma spelling_capitals v : first_letters v -> spelling (capitals v) = spelling v.
Proof.
  intros F. apply lower_same in F. rewrite capitals_runes in F. unfold spelling. rewrite capitals_runes. rewrite map_map in *.
  induction (runes v) as [|r rs IH]; [reflexivity|]. cbn [map] in *.
  assert (F1 : L (C r) = L r) by congruence. assert (F2 : map (fun x => L (C x)) rs = map L rs) by congruence.
  rewrite (IH F2). f_equal. destruct (N.eqb_spec (C r) 8217) as [E|N], (N.eqb_spec r 8217) as [E'|N']; auto.
  - apply (proj1 (capital_apostrophe r)) in E. contradiction.
  - apply (proj2 (capital_apostrophe r)) in E'. contradiction.
Qed.

Lemma C94_contractions s1 l1 s2 l2 : Yields s1 l1 -> Yields s2 l2 -> Forall2 in_capitals l1 l2 -> Forall (fun t => first_letters (tvalue t)) l1 ->
  exists o1 o2, Yields (Contractions go_unicode words_scan contraction_mappings s1) o1 /\
    Yields (Contractions go_unicode words_scan contraction_mappings s2) o2 /\ Forall2 same_spelling o1 o2.
Proof.
  intros Y1 Y2 F G. apply (C79_lemma s1 l1 s2 l2 Y1 Y2).
  refine (Forall2_upgrade (fun t => first_letters (tvalue t)) _ _ _ _ _ F G). intros t u (V & _) H. unfold same_spelling. rewrite V. symmetry. now apply spelling_capitals.
Qed.

(** ** Segmentation *)

(** [seg_loop] on chunks instead of their bytes. *)
Fixpoint seg_chunks (cx : ctx) (cur l : list (N * string)) : list (list (N * string)) :=
  match l with
  | [] => [cur]
  | (r, b) :: rest =>
    if boundary cx r rest then cur :: seg_chunks (advance cx r) [(r, b)] rest else seg_chunks (advance cx r) (cur ++ [(r, b)]) rest
  end.

Lemma bytes_app a b : bytes_of (a ++ b) = (bytes_of a ++ bytes_of b)%string.
Proof. unfold bytes_of. rewrite map_app. induction (map snd a) as [|x l IH]; [reflexivity|]. cbn [app sconcat]. now rewrite IH, sapp_assoc. Qed.

Lemma bytes_one r b : bytes_of [(r, b)] = b.
Proof. unfold bytes_of. cbn. apply sapp_nil_r. Qed.

Lemma seg_chunks_loop l : forall cx cur, seg_loop cx (bytes_of cur) l = map bytes_of (seg_chunks cx cur l).
Proof.
  induction l as [|[r b] l IH]; intros cx cur; [reflexivity|]. cbn [seg_loop seg_chunks]. destruct (boundary cx r l).
  - cbn [map]. now rewrite <- IH, bytes_one.
  - now rewrite <- IH, bytes_app, bytes_one.
Qed.

Lemma seg_chunks_concat l : forall cx cur, concat (seg_chunks cx cur l) = cur ++ l.
Proof.
  induction l as [|[r b] l IH]; intros cx cur; cbn [seg_chunks]; [cbn; now rewrite app_nil_r|]. destruct (boundary cx r l).
  - cbn [concat]. now rewrite IH.
  - rewrite IH, <- app_assoc. reflexivity.
Qed.

Section Related.
Variable R : N * string -> N * string -> Prop.
Hypothesis Same : forall p q, R p q -> wbc (fst q) = wbc (fst p) /\ range_mem ext_pict (fst q) = range_mem ext_pict (fst p).

Lemma next_class_rel l m : Forall2 R l m -> next_class m = next_class l.
Proof.
  induction 1 as [|[r b] [r' b'] l m H F IH]; [reflexivity|]. destruct (Same _ _ H) as [E _]. cbn [fst] in E. cbn [next_class]. now rewrite E, IH.
Qed.

Lemma boundary_rel cx p q l m : R p q -> Forall2 R l m -> boundary cx (fst q) m = boundary cx (fst p) l.
Proof. intros H F. destruct (Same _ _ H) as [E E']. unfold boundary. now rewrite E, E', (next_class_rel _ _ F). Qed.

Lemma seg_chunks_rel l m : Forall2 R l m -> forall cx c d, Forall2 R c d -> Forall2 (Forall2 R) (seg_chunks cx c l) (seg_chunks cx d m).
Proof.
  induction 1 as [|[r b] [r' b'] l m H F IH]; intros cx c d G; cbn [seg_chunks]; [constructor; auto|].
  pose proof (boundary_rel cx _ _ _ _ H F) as B. cbn [fst] in B. rewrite B.
  assert (A : advance cx r' = advance cx r) by (unfold advance; destruct (Same _ _ H) as [E _]; cbn [fst] in E; now rewrite E). rewrite A.
  destruct (boundary cx r l).
  - constructor; [exact G|]. apply IH. constructor; [exact H|constructor].
  - apply IH. apply Forall2_app; [exact G|]. constructor; [exact H|constructor].
Qed.
End Related.

Definition capital_chunk (p q : N * string) : Prop := fst q = C (fst p) /\ snd q = encode_rune (C (fst p)) /\ fst p <> 837 /\ fst p <> 9436.

Lemma capital_chunk_same p q : capital_chunk p q -> wbc (fst q) = wbc (fst p) /\ range_mem ext_pict (fst q) = range_mem ext_pict (fst p).
Proof. intros (E & _ & N1 & N2). rewrite E. now apply capital_breaks. Qed.

Lemma chunks_capitals s : Forall (fun r => r <> 837 /\ r <> 9436) (runes s) -> Forall2 capital_chunk (chunks s) (chunks (capitals s)).
Proof.
  intros F. unfold capitals. pose proof (runes_valid s) as V.
  assert (E : chunks (encode (map C (runes s))) = map (fun r => (r, encode_rune r)) (map C (runes s))).
  { assert (V' : Forall (fun r => valid_rune r = true) (map C (runes s))).
    { apply Forall_forall. intros y I. apply in_map_iff in I as (x & <- & I). apply capital_valid. rewrite Forall_forall in V. auto. }
    pose proof (GeneratorProofs.chunks_encode_app _ EmptyString V') as E. rewrite sapp_nil_r in E. rewrite E. cbn [chunks]. now rewrite app_nil_r. }
  rewrite E. clear E V. rewrite <- chunks_runes in F |- *. rewrite !map_map. induction (chunks s) as [|p l IH]; [constructor|].
  cbn [map] in F |- *. inversion F as [|? ? F1 F2]; subst. constructor; [|exact (IH F2)]. unfold capital_chunk. cbn [fst snd]. tauto.
Qed.

Lemma encode_bytes l m : Forall2 capital_chunk l m -> bytes_of m = encode (map C (map fst l)).
Proof.
  induction 1 as [|[r b] [r' b'] l m (E1 & E2 & _) F IH]; [reflexivity|]. cbn [fst snd] in *. subst. unfold bytes_of in *. cbn [map sconcat snd]. rewrite IH.
  reflexivity.
Qed.

(** Each part of the chunks is the chunks of its bytes. *)
Lemma parts_chunks ps : forall s, chunks s = concat ps -> Forall (fun p => chunks (bytes_of p) = p) ps.
Proof.
  induction ps as [|p ps IH]; intros s E; [constructor|]. cbn [concat] in E. destruct (chunks_prefix p s _ E) as (H & s2 & _ & E2).
  constructor; [exact H|]. exact (IH s2 E2).
Qed.

Lemma segments_capitals s : Forall (fun r => r <> 837 /\ r <> 9436) (runes s) -> Forall2 (fun p q => q = capitals p) (word_segments s) (word_segments (capitals s)).
Proof.
  intros F. pose proof (chunks_capitals s F) as G. unfold word_segments. destruct (chunks s) as [|[r b] l] eqn:Es.
  - inversion G; subst. constructor.
  - inversion G as [|? [r' b'] ? m H G' X Em]; subst.
    set (cx := advance (mkCtx WOther WOther WOther false) r).
    assert (A : advance (mkCtx WOther WOther WOther false) r' = cx) by (unfold cx, advance; destruct (capital_chunk_same _ _ H) as [E _]; cbn [fst] in E; now rewrite E).
    rewrite A. rewrite <- (bytes_one r b), <- (bytes_one r' b') at 1. rewrite !seg_chunks_loop.
    assert (P : Forall (fun p => chunks (bytes_of p) = p) (seg_chunks cx [(r, b)] l)) by (apply (parts_chunks _ s); rewrite seg_chunks_concat; exact Es).
    pose proof (seg_chunks_rel _ capital_chunk_same _ _ G' cx [(r, b)] [(r', b')] (Forall2_cons _ _ H (Forall2_nil _))) as K.
    clear - P K. induction K as [|p q ps qs K1 K IH]; [constructor|]. inversion P as [|? ? P1 P2]; subst. cbn [map]. constructor; [|exact (IH P2)].
    rewrite (encode_bytes _ _ K1). unfold capitals. rewrite <- chunks_runes, P1. reflexivity.
Qed.

Lemma piece_capitals x : x <> EmptyString -> capitals x <> EmptyString -> in_capitals (piece_token go_unicode x) (piece_token go_unicode (capitals x)).
Proof.
  intros N N'. pose proof (piece_token_ok go_unicode _ N) as E. pose proof (piece_token_ok go_unicode _ N') as E'.
  destruct (NewToken_value _ _ _ _ E) as (V & M & _), (NewToken_value _ _ _ _ E') as (V' & M' & _).
  destruct (NewToken_class go_unicode _ _ _ eq_refl eq_refl E) as [P S], (NewToken_class go_unicode _ _ _ eq_refl eq_refl E') as [P' S'].
  unfold in_capitals. rewrite V, V', M, M'. split; [reflexivity|]. rewrite capitals_runes in P', S'.
  split; [|split; [|reflexivity]]; apply eq_true_iff_eq.
  - rewrite P, P'. split; intros H r I.
    + rewrite <- (proj1 (capital_flags r)). apply H. now apply in_map.
    + apply in_map_iff in I as (x0 & <- & I). rewrite (proj1 (capital_flags x0)). auto.
  - rewrite S, S'. split; intros H r I.
    + rewrite <- (proj2 (capital_flags r)). apply H. now apply in_map.
    + apply in_map_iff in I as (x0 & <- & I). rewrite (proj2 (capital_flags x0)). auto.
Qed.

Lemma pieces_letters (P : N -> Prop) s : Forall P (runes s) -> Forall (fun p => Forall P (runes p)) (word_segments s).
Proof.
  rewrite <- chunks_runes, (pieces_chunks _ s eq_refl). induction (word_segments s) as [|p ps IH]; [constructor|].
  cbn [flat_map]. rewrite map_app, Forall_app, chunks_runes. intros [H1 H2]. constructor; auto.
Qed.

Lemma C94_tokens s : Forall (fun r => r <> 837 /\ r <> 9436) (runes s) ->
  exists l1 l2, Yields (TokenizeString go_unicode words_scan s) l1 /\ Yields (TokenizeString go_unicode words_scan (capitals s)) l2 /\
    Forall2 in_capitals l1 l2 /\ (first_letters s -> Forall (fun t => first_letters (tvalue t)) l1).
Proof.
  intros F. exists (map (piece_token go_unicode) (word_segments s)), (map (piece_token go_unicode) (word_segments (capitals s))).
  split; [exact (TokenizeString_yields go_unicode words_scan words_scan_ok s eq_refl)|].
  split; [exact (TokenizeString_yields go_unicode words_scan words_scan_ok (capitals s) eq_refl)|].
  split.
  - pose proof (segments_capitals s F) as G.
    assert (N1 : forall x, In x (word_segments s) -> x <> EmptyString) by exact (seg_nonempty words_scan words_scan_ok s).
    assert (N2 : forall x, In x (word_segments (capitals s)) -> x <> EmptyString) by exact (seg_nonempty words_scan words_scan_ok (capitals s)).
    induction G as [|p q ps qs E G IH]; [constructor|]. subst q. cbn [map]. constructor; [|apply IH; intros x I; [apply N1|apply N2]; now right].
    apply piece_capitals; [apply N1|apply N2]; now left.
  - intros H. apply Forall_map. apply (pieces_letters _ s) in H. revert H. apply Forall_impl. intros p H. now rewrite piece_token_value.
Qed.

(** ** Final sigma *)

Lemma C94_refutation :
  ~ (forall words s1 l1 s2 l2, Yields s1 l1 -> Yields s2 l2 -> Forall2 in_capitals l1 l2 ->
     exists o1 o2, Yields (Stopwords go_unicode words true s1) o1 /\ Yields (Stopwords go_unicode words true s2) o2 /\ Forall2 in_capitals o1 o2).
Proof.
  intros H. set (v := encode [964; 959; 965; 962]). set (t := mkToken v false false false). set (u := mkToken (capitals v) false false false).
  destruct (H [v] (source [t] None) [t] (source [u] None) [u]) as (o1 & o2 & Y1 & Y2 & F);
    [apply source_yields|apply source_yields|constructor; [repeat split|constructor]|].
  pose proof (Yields_inj _ _ _ Y1 (Stopwords_yields go_unicode [v] true _ _ (source_yields [t]))) as E1.
  pose proof (Yields_inj _ _ _ Y2 (Stopwords_yields go_unicode [v] true _ _ (source_yields [u]))) as E2.
  assert (P1 : stop_pred go_unicode [v] true t = false) by (vm_compute; reflexivity).
  assert (P2 : stop_pred go_unicode [v] true u = true) by (vm_compute; reflexivity).
  cbn [filter] in E1, E2. rewrite P1 in E1. rewrite P2 in E2. subst. inversion F.
Qed.
