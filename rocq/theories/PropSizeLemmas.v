(** * Lemmas behind C104 *)

From Coq Require Import Permutation.
From Verif Require Import Base Utf8 Unicode UnicodeData Token Stream StreamSpec Tokenizer Words Filters Ascii AsciiTable Trie Synonyms ContractionsTable
  SoTable NbaTable Dictionaries FilterSpec SynSpec ChainSpec DictSpec LineSpec SizeSpec Sources StreamProofs Utf8Proofs TokenProofs FilterProofs AsciiProofs ChainProofs WordsProofs
  DictProofs PropFiltersLemmas PropSigilLemmas PropSynLemmas PropSynLemmas2 PropLineLemmas.

Lemma text_app a b : text (a ++ b) = (text a ++ text b)%string.
Proof. unfold text. now rewrite map_app, sconcat_app. Qed.

Lemma text_length_cons t l : String.length (text (t :: l)) = (String.length (tvalue t) + String.length (text l))%nat.
Proof. unfold text. cbn [map sconcat]. apply sapp_length. Qed.

Lemma text_length_app a b : String.length (text (a ++ b)) = (String.length (text a) + String.length (text b))%nat.
Proof. rewrite text_app. apply sapp_length. Qed.

Lemma grows_chain fs ps qs : length fs = length ps -> length ps = length qs ->
  Forall (fun x => grows (fst (snd x)) (snd (snd x)) (fst x)) (combine fs (combine ps qs)) -> grows (product ps) (product qs) (ApplyFilters fs).
Proof.
  revert ps qs. induction fs as [|F fs IH]; intros ps qs L1 L2 H.
  - destruct ps; [|discriminate]. destruct qs; [|discriminate]. intros s l Y. exists l. split; [exact Y|cbn; lia].
  - destruct ps as [|p ps]; [discriminate|]. destruct qs as [|q qs]; [discriminate|]. cbn in L1, L2. inversion H as [|? ? G Gs]; subst. cbn in G.
    specialize (IH ps qs ltac:(lia) ltac:(lia) Gs). intros s l Y. destruct (G _ _ Y) as (o & Yo & Lo). destruct (IH _ _ Yo) as (o' & Yo' & Lo').
    exists o'. split; [exact Yo'|]. cbn [product fold_right]. fold (product ps) (product qs). nia.
Qed.

(** ** Filters that treat each token by itself *)

Lemma grows_each p q F (g : token -> list token) : (forall s l, Yields s l -> Yields (F s) (flat_map g l)) ->
  (forall t, q * String.length (text (g t)) <= p * String.length (tvalue t)) -> grows p q F.
Proof.
  intros Y G s l Ys. exists (flat_map g l). split; [auto|]. clear Ys. induction l as [|t l IH]; [cbn; lia|].
  cbn [flat_map]. rewrite text_length_cons, text_length_app. specialize (G t). nia.
Qed.

Lemma select_grows F (pred : token -> bool) : transforms F (filter pred) -> grows 1 1 F.
Proof.
  intros (T & _) s l Y. exists (filter pred l). split; [auto|]. clear Y. induction l as [|t l IH]; [cbn; lia|].
  cbn [filter]. destruct (pred t); rewrite ?text_length_cons in *; lia.
Qed.

Lemma sigil_grows U sigil legal : sigil <> EmptyString -> grows 1 1 (Sigil U sigil legal).
Proof.
  intros NE s l Y. destruct (proj1 (C31_lemma' U sigil legal NE s l) Y) as (o & Yo & _ & T). exists o. split; [exact Yo|]. rewrite T. lia.
Qed.

Lemma distinct_grows : grows 1 1 Distinct.
Proof.
  intros s l Y. exists (first_occurrences [] l). split; [now apply Distinct_yields|]. clear Y. generalize (@nil string).
  induction l as [|t l IH]; intros seen; [cbn; lia|]. cbn [first_occurrences]. destruct (smem (tvalue t) seen); rewrite !text_length_cons.
  - specialize (IH seen). lia.
  - specialize (IH (tvalue t :: seen)). lia.
Qed.

Lemma selecting_grows U F : selecting U F \/ F = Distinct \/ F = Handles U \/ F = Hashtags U -> grows 1 1 F.
Proof.
  intros [[pred| | |words ic]|[->|[->| ->]]].
  - eapply select_grows, where_transforms.
  - eapply select_grows, where_transforms.
  - eapply select_grows, where_transforms.
  - eapply select_grows, stop_transforms.
  - apply distinct_grows.
  - now apply sigil_grows.
  - now apply sigil_grows.
Qed.

(** ** ascii.Fold *)

Lemma fold_arm_sizes : forallb (fun a : list N * list N * bool => let '(cs, out, _) := a in
  forallb (fun r => valid_rune r && negb (r =? 65533)%N && (3 * String.length (encode out) <=? 4 * String.length (enc_raw r))) cs) fold_arms = true.
Proof. vm_compute. reflexivity. Qed.

Lemma subst_size r : valid_rune r = true -> 3 * String.length (encode (subst_rune r)) <= 4 * String.length (enc_raw r).
Proof.
  intros V. unfold subst_rune. destruct (find_arm fold_arms r) as [[o f]|] eqn:E.
  - apply find_arm_some in E as (cs & I & Ir). pose proof fold_arm_sizes as T. rewrite forallb_forall in T. specialize (T _ I). cbn in T.
    rewrite forallb_forall in T. specialize (T _ Ir). apply andb_true_iff in T as [_ T]. now apply Nat.leb_le in T.
  - cbn [encode]. rewrite encode_rune_valid, sapp_length by exact V. cbn. lia.
Qed.

Lemma subst_error : encode (subst_rune RuneError) = enc_raw RuneError.
Proof. vm_compute. reflexivity. Qed.

Lemma folded_size s : String.length (encode (flat_map subst_rune (runes s))) <= 3 * String.length s /\
  (valid_utf8 s = true -> 3 * String.length (encode (flat_map subst_rune (runes s))) <= 4 * String.length s).
Proof.
  induction s as [|r s V R VU IH|c s R VU B IH] using decode_ind.
  - cbn. lia.
  - rewrite R, VU. cbn [flat_map]. rewrite encode_app, !sapp_length. pose proof (subst_size r V). destruct IH as [A1 A2].
    split; [lia|]. intros X. specialize (A2 X). lia.
  - rewrite R, VU. cbn [flat_map]. rewrite encode_app, !sapp_length, subst_error. change (String.length (enc_raw RuneError)) with 3. cbn [String.length].
    destruct IH as [A1 _]. split; [lia|discriminate].
Qed.

Lemma FoldString_size s : String.length (fst (FoldString s)) <= 3 * String.length s /\
  (valid_utf8 s = true -> 3 * String.length (fst (FoldString s)) <= 4 * String.length s).
Proof. rewrite FoldString_spec. destruct (existsb flagged (runes s)); cbn [fst]; [apply folded_size|lia]. Qed.

Lemma folder_map s l : Yields s l -> Yields (Fold go_unicode s) (map (force_map [folder go_unicode]) l) /\
  Forall (fun t => tvalue (force_map [folder go_unicode] t) = fst (FoldString (tvalue t))) l.
Proof.
  intros Y. split.
  - apply mapper_transforms; [|exact Y]. intros g t [<-|[]]. destruct (folder_total go_unicode t) as (t' & M & _). unfold maps_to in M. cbn in M. congruence.
  - apply Forall_forall. intros t _. unfold force_map. cbn. unfold folder. destruct (FoldString (tvalue t)) as [v [|]] eqn:E; cbn [fst].
    + destruct (NewToken_cons go_unicode v true (FoldString_nonempty _ _ E)) as (t' & N). rewrite N. cbn. now destruct (NewToken_value _ _ _ _ N).
    + cbn. rewrite FoldString_spec in E. destruct (existsb _ _); inversion E; reflexivity.
Qed.

Lemma fold_grows : grows 3 1 (Fold go_unicode) /\ grows_utf8 4 3 (Fold go_unicode).
Proof.
  split.
  - intros s l Y. destruct (folder_map s l Y) as [Yo V]. eexists. split; [exact Yo|]. clear Y Yo. induction V as [|t l E V IH]; [cbn; lia|].
    cbn [map]. rewrite !text_length_cons, E. pose proof (proj1 (FoldString_size (tvalue t))). lia.
  - intros s l Y U8. destruct (folder_map s l Y) as [Yo V]. eexists. split; [exact Yo|]. clear Y Yo. induction V as [|t l E V IH]; [cbn; lia|].
    cbn [map]. rewrite !text_length_cons, E. pose proof (proj2 (FoldString_size (tvalue t)) (U8 t (or_introl eq_refl))).
    assert (forall x, In x l -> valid_utf8 (tvalue x) = true) by (intros; apply U8; now right). specialize (IH H0). lia.
Qed.

(** ** contractions.Expand *)

Lemma runes_size s : length (runes s) <= String.length s.
Proof.
  induction s as [|r s V R VU IH|c s R VU B IH] using decode_ind.
  - cbn. lia.
  - rewrite R, sapp_length. cbn [length]. pose proof (enc_raw_length r). lia.
  - rewrite R. cbn [length String.length]. lia.
Qed.

Lemma lower_count U s : length (runes (strings_ToLower U s)) <= String.length s.
Proof.
  unfold strings_ToLower. destruct (is_ascii_string s) eqn:A.
  - etransitivity; [apply runes_size|]. clear A. induction s as [|c s IH]; cbn; lia.
  - rewrite runes_encode, !map_length. apply runes_size.
Qed.

Lemma expansion_sizes : forallb (fun kv => 3 * String.length (snd kv) <=? 7 * length (runes (fst kv))) contraction_mappings = true.
Proof. vm_compute. reflexivity. Qed.

Lemma expand_grows : grows 7 3 (Contractions go_unicode words_scan contraction_mappings).
Proof.
  apply grows_each with (g := expand_token go_unicode words_scan contraction_mappings).
  - intros s l Y. apply Contractions_yields; auto using words_scan_ok. reflexivity.
  - intros t. unfold expand_token, lookup_expansion.
    assert (K : forall k v, In (k, v) contraction_mappings -> length (runes k) <= String.length (tvalue t) ->
      3 * String.length (text (match map (piece_token go_unicode) (seg words_scan v) with [] => [t] | l => l end)) <= 7 * String.length (tvalue t)).
    { intros k v I L. pose proof expansion_sizes as T. rewrite forallb_forall in T. specialize (T _ I). cbn in T. apply Nat.leb_le in T.
      destruct (map (piece_token go_unicode) (seg words_scan v)) as [|x xs] eqn:E; [rewrite text_length_cons; cbn; lia|]. rewrite <- E.
      replace (text (map (piece_token go_unicode) (seg words_scan v))) with v; [lia|].
      unfold text. rewrite map_map. rewrite <- (seg_concat words_scan words_scan_ok v eq_refl) at 1. f_equal. rewrite <- (map_id (seg words_scan v)) at 1.
      apply map_ext_in. intros p I'. symmetry. apply piece_token_value. }
    destruct (assoc (tvalue t) contraction_mappings) as [v|] eqn:A1.
    + apply assoc_In in A1. apply (K _ _ A1), runes_size.
    + destruct (assoc (strings_ToLower go_unicode (tvalue t)) contraction_mappings) as [v|] eqn:A2.
      * apply assoc_In in A2. apply (K _ _ A2), lower_count.
      * rewrite text_length_cons. cbn. lia.
Qed.

(** ** Synonyms *)

Lemma letters_size U ic ig v : length (letters U ic ig v) <= String.length v.
Proof.
  unfold letters. pose proof (runes_size v). rewrite <- (map_length (fun r => if ic then uToLower U r else r)) in H. etransitivity; [|exact H].
  generalize (map (fun r => if ic then uToLower U r else r) (runes v)). intros l. induction l as [|x l IH]; cbn; [lia|].
  destruct (negb _); cbn; lia.
Qed.

Lemma spelled_size U ic ig l : length (spelled U ic ig l) <= String.length (text l).
Proof.
  induction l as [|t l IH]; [cbn; lia|]. unfold spelled in *. cbn [flat_map]. rewrite app_length, text_length_cons. pose proof (letters_size U ic ig (tvalue t)). lia.
Qed.

Lemma window_prefix n l k : k <= length (window n l) -> firstn k (window n l) = firstn k l.
Proof.
  revert n k. induction l as [|t l IH]; intros n k L; [destruct n; cbn in *; now destruct k|].
  destruct n as [|n]; [cbn in L; now replace k with 0 by lia|]. cbn [window] in *.
  destruct (tpunct t); [cbn in L; now replace k with 0 by lia|].
  destruct (tspace t); destruct k as [|k]; try reflexivity; cbn in L; cbn [firstn]; f_equal; apply IH; lia.
Qed.

Lemma rewrites_size U ic ig D n p q l o : q <= p ->
  (forall m c, In (m, c) D -> q * String.length c <= p * length (spelled U ic ig m)) -> rewrites U ic ig D n l o ->
  q * String.length (text o) <= p * String.length (text l).
Proof.
  intros PQ B R. induction R as [|t l o _ R IH|t l o _ _ R IH|t l k c g o _ [[Lk M] _] G R IH].
  - cbn. lia.
  - rewrite !text_length_cons. nia.
  - rewrite !text_length_cons. nia.
  - destruct M as (a & m & b & E & S & _). assert (I : In (m, c) D) by (rewrite E; apply in_or_app; right; now left). specialize (B _ _ I).
    rewrite S, (window_prefix n (t :: l) k) in B by lia. pose proof (spelled_size U ic ig (firstn k (t :: l))) as SP.
    rewrite text_length_app. rewrite <- (firstn_skipn k (t :: l)) at 1. rewrite text_length_app.
    assert (Lg : String.length (text g) = String.length c).
    { destruct G as [(-> & ->)|(x & (V & _) & ->)]; [reflexivity|]. rewrite text_length_cons, V. cbn. lia. }
    rewrite Lg. nia.
Qed.

Lemma syn_grows U scan ms ic ig D b p q : scanner_ok scan -> uIsSpace U 44 = false -> q <= p ->
  dictionary_of (key_tokens U scan) ms D -> built_from U scan ms ic ig b ->
  (forall m c, In (m, c) D -> q * String.length c <= p * length (spelled U ic ig m)) -> grows p q (SynFilter U None b).
Proof.
  intros SC CS PQ Dd B H s l Y. destruct (C38_lemma U scan SC CS _ _ _ _ _ Dd B) as (n & _ & R). destruct (R _ _ Y) as (o & Ro & Yo).
  exists o. split; [exact Yo|]. eapply rewrites_size; eauto.
Qed.

Definition sizes_ok (p q : nat) (l : list (list N * string)) : bool := forallb (fun x => q * String.length (snd x) <=? p * length (fst x)) l.

Lemma shipped_grows ms0 ig p q : q <= p -> table_ok go_unicode true ig ms0 = true -> (forall k c, In (k, c) ms0 -> cuts_at_commas words_scan k) ->
  sizes_ok p q (spellings go_unicode true ig ms0) = true ->
  forall ms b, Permutation ms0 ms -> built_from go_unicode words_scan ms true ig b -> grows p q (SynFilter go_unicode None b).
Proof.
  intros PQ OK CC SZ ms b P B. destruct (built_dictionary go_unicode words_scan words_scan_ok go_comma _ _ _ _ B) as (D & Dd).
  eapply syn_grows; eauto using words_scan_ok, go_comma. intros m c I.
  assert (K : In (spelled go_unicode true ig m, c) (spellings go_unicode true ig ms)).
  { apply andb_prop in OK as [T1 _]. eapply dictionary_spelled; eauto using words_scan_ok.
    - intros k x Ik. apply (CC k x), (Permutation_in _ (Permutation_sym P)), Ik.
    - intros k x r Ik. eapply (spaces_vanish_spec _ _ _ _ T1). eapply Permutation_in; [symmetry; exact P|exact Ik]. }
  assert (K0 : In (spelled go_unicode true ig m, c) (spellings go_unicode true ig ms0)).
  { unfold spellings in *. rewrite in_flat_map in *. destruct K as (x & Ix & K). exists x. split; [|exact K].
    eapply Permutation_in; [symmetry; exact P|exact Ix]. }
  unfold sizes_ok in SZ. rewrite forallb_forall in SZ. specialize (SZ _ K0). cbn in SZ. now apply Nat.leb_le in SZ.
Qed.

Lemma Tags_sizes : sizes_ok 23 2 (spellings go_unicode true [32; 45; 46; 47]%N so_mappings) = true.
Proof. vm_compute. reflexivity. Qed.

Lemma Players_sizes : sizes_ok 5 3 (spellings go_unicode true [32; 46; 39; 45; 8211]%N nba_mappings) = true.
Proof. vm_compute. reflexivity. Qed.

(** ** The factors cannot be improved *)

Lemma grows_tight p q F s l o : grows p q F -> Yields s l -> Yields (F s) o -> q * String.length (text o) <= p * String.length (text l).
Proof. intros G Y Yo. destruct (G _ _ Y) as (o' & Yo' & L). now rewrite <- (Yields_inj _ _ _ Yo Yo') in L. Qed.

(** U+00E9, then [n] bytes that are no UTF-8. *)
Fixpoint bad_bytes (n : nat) : string := match n with O => EmptyString | S m => String (chr 255) (bad_bytes m) end.

Lemma bad_runes n : runes (bad_bytes n) = repeat RuneError n /\ String.length (bad_bytes n) = n.
Proof.
  induction n as [|n [IH1 IH2]]; [split; reflexivity|]. cbn [bad_bytes repeat String.length]. split; [|now rewrite IH2].
  rewrite runes_cons. cbn. now rewrite IH1.
Qed.

Lemma bad_fold n : String.length (fst (FoldString (encode [233%N] ++ bad_bytes n))) = 1 + 3 * n.
Proof.
  rewrite FoldString_spec. rewrite runes_encode_app. cbn [map app]. rewrite (proj1 (bad_runes n)).
  change (fix_rune 233) with 233%N. cbn [existsb]. change (flagged 233) with true. cbn [orb fst flat_map].
  rewrite encode_app, sapp_length. change (String.length (encode (subst_rune 233))) with 1. f_equal.
  induction n as [|n IH]; [reflexivity|]. cbn [repeat flat_map]. rewrite encode_app, sapp_length, IH, subst_error. cbn. lia.
Qed.

Lemma fold_tight p q : grows p q (Fold go_unicode) -> 3 * q <= p.
Proof.
  intros G. set (n := 5 * q). set (t := tok (encode [233%N] ++ bad_bytes n)).
  destruct (folder_map (source [t] None) [t] (source_yields _)) as [Yo V].
  pose proof (grows_tight _ _ _ _ _ _ G (source_yields [t]) Yo) as L. inversion V as [|? ? E _]; subst. cbn [map] in L.
  rewrite !text_length_cons, E in L. cbn [text map sconcat String.length] in L.
  assert (Vt : tvalue t = (encode [233%N] ++ bad_bytes n)%string) by (unfold t, tok; reflexivity).
  rewrite Vt, bad_fold, sapp_length, (proj2 (bad_runes n)) in L. change (String.length (encode [233%N])) with 2 in L. unfold n in L. nia.
Qed.

Lemma fold_utf8_tight p q : grows_utf8 p q (Fold go_unicode) -> 4 * q <= 3 * p.
Proof.
  intros G. set (t := tok (encode [9341%N])). destruct (G (source [t] None) [t] (source_yields _)) as (o & Yo & L).
  - intros x [<-|[]]. vm_compute. reflexivity.
  - destruct (folder_map (source [t] None) [t] (source_yields _)) as [Yo' V]. rewrite (Yields_inj _ _ _ Yo Yo') in L. inversion V as [|? ? E _]; subst. cbn [map] in L.
    rewrite !text_length_cons, E in L. change (String.length (fst (FoldString (tvalue t)))) with 4 in L. change (String.length (tvalue t)) with 3 in L. cbn in L. lia.
Qed.

Lemma expand_tight p q : grows p q (Contractions go_unicode words_scan contraction_mappings) -> 7 * q <= 3 * p.
Proof.
  intros G. assert (Yo : Yields (Contractions go_unicode words_scan contraction_mappings (source [tok "I'd"] None))
    (flat_map (expand_token go_unicode words_scan contraction_mappings) [tok "I'd"])).
  { apply Contractions_yields; auto using words_scan_ok, source_yields. reflexivity. }
  pose proof (grows_tight _ _ _ _ _ _ G (source_yields [tok "I'd"]) Yo) as L.
  assert (E : String.length (text (flat_map (expand_token go_unicode words_scan contraction_mappings) [tok "I'd"])) = 7) by (vm_compute; reflexivity).
  rewrite E in L. cbn in L. lia.
Qed.

From Verif Require Import PropSynLemmas5 PropStableLemmas.

Lemma Tags_ai : String.length (text (run so_mappings true [32; 45; 46; 47]%N [tok "ai"])) = 23.
Proof. vm_cast_no_check (eq_refl 23). Qed.

Lemma Tags_tight ms b p q : Permutation so_mappings ms -> built_from go_unicode words_scan ms true [32; 45; 46; 47]%N b ->
  grows p q (SynFilter go_unicode None b) -> 23 * q <= 2 * p.
Proof.
  intros P B G. pose proof (shipped_run _ _ so_table_ok words_scan_cuts_so ms b _ _ P B (source_yields [tok "ai"])) as Yo.
  pose proof (grows_tight _ _ _ _ _ _ G (source_yields [tok "ai"]) Yo) as L. rewrite Tags_ai in L. cbn in L. lia.
Qed.

Lemma Players_leaf : String.length (text (run nba_mappings true [32; 46; 39; 45; 8211]%N [tok "TJLeaf"])) = 10.
Proof. vm_cast_no_check (eq_refl 10). Qed.

Lemma Players_tight ms b p q : Permutation nba_mappings ms -> built_from go_unicode words_scan ms true [32; 46; 39; 45; 8211]%N b ->
  grows p q (SynFilter go_unicode None b) -> 5 * q <= 3 * p.
Proof.
  intros P B G. pose proof (shipped_run _ _ nba_table_ok words_scan_cuts_nba ms b _ _ P B (source_yields [tok "TJLeaf"])) as Yo.
  pose proof (grows_tight _ _ _ _ _ _ G (source_yields [tok "TJLeaf"]) Yo) as L. rewrite Players_leaf in L. cbn in L. lia.
Qed.
