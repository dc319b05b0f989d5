(** * PropFoldExpandExact: exactly when folding and expanding contractions can be done in either order (C84). *)

From Verif Require Import Base Utf8 Unicode UnicodeData Token Stream StreamSpec Tokenizer Words Filters AsciiTable Ascii ContractionsTable FilterSpec ExpandSpec OrderSpec
  StreamProofs TokenProofs Utf8Proofs AsciiProofs FilterProofs WordsProofs Sources PropFiltersLemmas PropAsciiLemmas PropExpandLemmas PropFoldExpandLemmas.
Local Open Scope N_scope.

(** ** Contractions and their letters *)

Definition lowers_to_ascii (x : N) : bool := (128 <=? L x) || (x <? 128) || (x =? 304) || (x =? 8490).
Lemma lower_ascii_table : forallb lowers_to_ascii (lower_points lower_runs) = true.
Proof. vm_cast_no_check (eq_refl true). Qed.

Lemma lower_origin r : L r < 128 -> r < 128 \/ r = 304 \/ r = 8490.
Proof.
  intros H. pose proof lower_table as T. apply andb_prop in T as [T1 _].
  assert (F : Forall (fun x : N * N * N * Z => snd (fst x) <> 0) lower_runs).
  { apply Forall_forall. rewrite forallb_forall in T1. intros y I. specialize (T1 y I). now apply negb_true_iff, N.eqb_neq in T1. }
  destruct (lower_point lower_runs F r) as [E|I].
  - change (L r = r) in E. rewrite E in H. now left.
  - pose proof lower_ascii_table as T. rewrite forallb_forall in T. specialize (T r I). unfold lowers_to_ascii in T.
    rewrite !orb_true_iff, N.leb_le, N.ltb_lt, !N.eqb_eq in T. lia.
Qed.

Lemma keys_ascii : forallb (fun kx : string * string => forallb (fun r => r <? 128) (spelling (fst kx))) contraction_mappings = true.
Proof. vm_cast_no_check (eq_refl true). Qed.

Definition nearly_plain (r : N) : Prop := r < 128 \/ r = 8217 \/ r = 304 \/ r = 8490.

Lemma contraction_letters v x : lookup v = Some x -> Forall nearly_plain (runes v).
Proof.
  intros H. destruct (lookup_key _ _ H) as (k & I & S). pose proof keys_ascii as T. rewrite forallb_forall in T. specialize (T _ I). cbn [fst] in T.
  rewrite <- S in T. rewrite forallb_forall in T. apply Forall_forall. intros r Ir. unfold spelling in T.
  specialize (T _ (in_map _ _ _ Ir)). cbn beta in T. apply N.ltb_lt in T. unfold nearly_plain. destruct (N.eqb_spec r 8217) as [Q|Q]; [auto|].
  destruct (lower_origin r T) as [O|[O|O]]; auto.
Qed.

Lemma find_dotted : find_arm fold_arms 304 = Some ([73], true) /\ find_arm fold_arms 8490 = None.
Proof. split; vm_compute; reflexivity. Qed.

Lemma nearly_plain_subst r : nearly_plain r -> Forall (fun y => valid_rune y = true) (subst_rune r) /\ map (fun y => L (straight y)) (subst_rune r) = [L (straight r)].
Proof.
  intros [H|[->|[->| ->]]].
  - rewrite plain_subst by now left. split; [constructor; [|constructor]|].
    + unfold straight. destruct (N.eqb_spec r 8217); [reflexivity|]. apply valid_rune_spec. lia.
    + cbn [map]. assert (Q : straight r = r) by (unfold straight; destruct (N.eqb_spec r 8217); [lia|reflexivity]). now rewrite !Q.
  - rewrite plain_subst by now right. split; [repeat constructor|reflexivity].
  - unfold subst_rune. rewrite (proj1 find_dotted). split; [repeat constructor|vm_compute; reflexivity].
  - unfold subst_rune. rewrite (proj2 find_dotted). split; [repeat constructor|vm_compute; reflexivity].
Qed.

Lemma folded_spelling v : Forall nearly_plain (runes v) -> spelling (folded v) = spelling v.
Proof.
  intros P. unfold folded. rewrite FoldString_spec. destruct (existsb flagged (runes v)); cbn [fst]; [|reflexivity].
  unfold spelling. fold straight.
  assert (H : Forall (fun y => valid_rune y = true) (flat_map subst_rune (runes v)) /\
    map (fun y => L (straight y)) (flat_map subst_rune (runes v)) = map (fun y => L (straight y)) (runes v)).
  { induction P as [|r rs H P [IH1 IH2]]; [split; [constructor|reflexivity]|]. destruct (nearly_plain_subst r H) as [V M]. cbn [flat_map].
    split; [now apply Forall_app|]. rewrite map_app, M, IH2. reflexivity. }
  destruct H as [V M]. rewrite runes_encode, map_fix_valid by exact V. exact M.
Qed.

Lemma folded_contraction v x : lookup v = Some x -> exists y, lookup (folded v) = Some y.
Proof.
  intros H. destruct (lookup_key _ _ H) as (k & I & S). apply (lookup_found _ k x I). rewrite folded_spelling by exact (contraction_letters v x H). exact S.
Qed.

(** ** The outputs *)

Section Scanner.
Variable scan : oracle.
Hypothesis scan_ok : scanner_ok scan.
Hypothesis splits : splits_expansions scan.

Notation E := (expand_token go_unicode scan contraction_mappings).

Lemma long_expansions : forallb (fun kx : string * string => Nat.leb 2 (length (split_spaces "" (snd kx)))) contraction_mappings = true.
Proof. vm_cast_no_check (eq_refl true). Qed.
Lemma joined_expansions : forallb (fun kx : string * string => seqb (sconcat (split_spaces "" (snd kx))) (snd kx)) contraction_mappings = true.
Proof. vm_cast_no_check (eq_refl true). Qed.

Lemma lookup_In v x : lookup v = Some x -> exists k, In (k, x) contraction_mappings.
Proof. intros H. destruct (lookup_key _ _ H) as (k & I & _). eauto. Qed.

Lemma expand_found t x : lookup (tvalue t) = Some x -> E t = map (piece_token go_unicode) (split_spaces "" x) /\ (2 <= length (E t))%nat /\ sconcat (split_spaces "" x) = x.
Proof.
  intros H. destruct (lookup_In _ _ H) as (k & I). unfold expand_token. rewrite H. unfold seg. rewrite (splits _ _ I). cbn [pending].
  pose proof long_expansions as T. rewrite forallb_forall in T. specialize (T _ I). cbn [snd] in T. apply Nat.leb_le in T.
  pose proof joined_expansions as J. rewrite forallb_forall in J. specialize (J _ I). cbn [snd] in J. apply seqb_eq in J.
  rewrite <- (map_length (piece_token go_unicode)) in T. destruct (map (piece_token go_unicode) (split_spaces "" x)) as [|a l] eqn:M; [cbn in T; lia|].
  auto.
Qed.
Lemma expand_none t : lookup (tvalue t) = None -> E t = [t].
Proof. intros H. unfold expand_token. now rewrite H. Qed.

Lemma expand_words t : E t = expand_token go_unicode words_scan contraction_mappings t.
Proof.
  unfold expand_token. destruct (lookup (tvalue t)) as [x|] eqn:H; [|reflexivity]. destruct (lookup_In _ _ H) as (k & I).
  unfold seg. rewrite (splits _ _ I), (words_scan_splits _ _ I). reflexivity.
Qed.

Lemma lengths t : (length (E t) <= length (E (fold_tok t)))%nat.
Proof.
  destruct (lookup (tvalue t)) as [x|] eqn:H.
  - rewrite !expand_words. rewrite <- (map_length (fun t => spelling (tvalue t)) (expand_token _ _ _ t)), <- (map_length (fun t => spelling (tvalue t)) (expand_token _ _ _ (fold_tok t))).
    rewrite (expand_alike t (fold_tok t)); [constructor|]. unfold same_spelling. rewrite (proj2 (folder_some t)). symmetry. apply folded_spelling, (contraction_letters _ x H).
  - rewrite expand_none by exact H. cbn [length]. destruct (lookup (tvalue (fold_tok t))) as [y|] eqn:G.
    + pose proof (proj1 (proj2 (expand_found _ _ G))). lia.
    + rewrite expand_none by exact G. constructor.
Qed.

Lemma same_lookup t : map fold_tok (E t) = E (fold_tok t) -> lookup (folded (tvalue t)) = lookup (tvalue t).
Proof.
  intros H. rewrite <- (proj2 (folder_some t)). destruct (lookup (tvalue t)) as [x|] eqn:A.
  - destruct (folded_contraction _ _ A) as [y B]. rewrite <- (proj2 (folder_some t)) in B. rewrite B. f_equal.
    destruct (expand_found _ _ A) as (EA & _ & JA). destruct (expand_found _ _ B) as (EB & _ & JB). rewrite EA, EB in H.
    apply (f_equal (map tvalue)) in H. rewrite !map_map in H.
    assert (P : forall l, map (fun p => tvalue (piece_token go_unicode p)) l = l).
    { intros l. rewrite <- (map_id l) at 2. apply map_ext. intros p. apply piece_token_value. }
    rewrite P in H. rewrite <- JA, <- JB. f_equal. rewrite <- H. rewrite <- (map_id (split_spaces "" x)) at 2. symmetry. apply map_ext_in. intros p Ip.
    rewrite (proj2 (folder_some _)), piece_token_value. unfold folded. rewrite FoldString_ascii; [reflexivity|].
    destruct (lookup_In _ _ A) as (k & I). pose proof contraction_pieces as T. rewrite forallb_forall in T. specialize (T _ I). cbn [snd] in T.
    apply andb_prop in T as [_ T]. rewrite forallb_forall in T. specialize (T _ Ip). unfold piece_ok in T.
    apply andb_prop in T as [T _]. now apply andb_prop in T as [T _].
  - destruct (lookup (tvalue (fold_tok t))) as [y|] eqn:B; [|reflexivity]. exfalso. destruct (expand_found _ _ B) as (_ & G & _).
    rewrite <- H, map_length, (expand_none t A) in G. cbn in G. lia.
Qed.

Lemma lengths_all l : (length (flat_map E l) <= length (flat_map E (map fold_tok l)))%nat.
Proof. induction l as [|t l IH]; [constructor|]. cbn [flat_map map]. rewrite !app_length. pose proof (lengths t). lia. Qed.

Lemma app_inv_length {A} (a b c d : list A) : a ++ b = c ++ d -> length a = length c -> a = c /\ b = d.
Proof.
  revert c. induction a as [|x a IH]; intros [|y c] H Hl; try discriminate; [auto|]. cbn in *. injection H as -> H. injection Hl as Hl.
  destruct (IH c H Hl) as [-> ->]. auto.
Qed.

Lemma each_same l : map fold_tok (flat_map E l) = flat_map E (map fold_tok l) -> forall t, In t l -> map fold_tok (E t) = E (fold_tok t).
Proof.
  induction l as [|u l IH]; intros H t I; [destruct I|]. cbn [flat_map map] in H. rewrite map_app in H.
  assert (Hl : length (map fold_tok (E u)) = length (E (fold_tok u))).
  { apply (f_equal (@length token)) in H. rewrite !app_length, !map_length in H. pose proof (lengths u). pose proof (lengths_all l). rewrite map_length. lia. }
  destruct (app_inv_length _ _ _ _ H Hl) as [H1 H2]. destruct I as [<-|I]; [exact H1|]. exact (IH H2 t I).
Qed.

Lemma fold_expand_same t : lookup (folded (tvalue t)) = lookup (tvalue t) -> map fold_tok (E t) = E (fold_tok t).
Proof.
  intros H. rewrite <- (proj2 (folder_some t)) in H. destruct (lookup (tvalue t)) as [x|] eqn:A.
  - rewrite (proj1 (expand_found _ _ A)), (proj1 (expand_found _ _ H)). rewrite map_map. apply map_ext_in. intros p Ip. unfold fold_tok, folder. rewrite piece_token_value.
    rewrite FoldString_ascii; [reflexivity|].
    destruct (lookup_In _ _ A) as (k & I). pose proof contraction_pieces as T. rewrite forallb_forall in T. specialize (T _ I). cbn [snd] in T.
    apply andb_prop in T as [_ T]. rewrite forallb_forall in T. specialize (T _ Ip). unfold piece_ok in T.
    apply andb_prop in T as [T _]. now apply andb_prop in T as [T _].
  - rewrite (expand_none _ A), (expand_none _ H). reflexivity.
Qed.

Lemma same_expansions v w : (forall e, expansion go_unicode contraction_mappings v e <-> expansion go_unicode contraction_mappings w e) <-> lookup w = lookup v.
Proof.
  pose proof (fun v e => lookup_expansion_spec go_unicode contraction_mappings v e contraction_keys) as S. split.
  - intros H. destruct (lookup v) as [x|] eqn:A.
    + apply S, H, S. exact A.
    + destruct (lookup w) as [y|] eqn:B; [|reflexivity]. apply S, H, S in B. congruence.
  - intros H e. rewrite <- (S v e), <- (S w e), H. tauto.
Qed.

Lemma C84_exact_aux l :
  either_order (Fold go_unicode) (Contractions go_unicode scan contraction_mappings) l <->
  forall t, In t l -> forall e, expansion go_unicode contraction_mappings (tvalue t) e <-> expansion go_unicode contraction_mappings (folded (tvalue t)) e.
Proof.
  pose proof (splits_fine scan splits) as fine. split.
  - intros H t I. apply same_expansions. apply same_lookup.
    destruct (H (source l None)) as [H1 _]. destruct (H1 (source_yields _)) as (o & Y1 & Y2).
    assert (Z1 : Yields (Fold go_unicode (Contractions go_unicode scan contraction_mappings (source l None))) (map fold_tok (flat_map E l))).
    { apply Fold_yields, Contractions_yields; [exact scan_ok|exact fine|apply source_yields]. }
    assert (Z2 : Yields (Contractions go_unicode scan contraction_mappings (Fold go_unicode (source l None))) (flat_map E (map fold_tok l))).
    { apply Contractions_yields; [exact scan_ok|exact fine|]. apply Fold_yields, source_yields. }
    pose proof (Yields_inj _ _ _ Y1 Z1) as E1. pose proof (Yields_inj _ _ _ Y2 Z2) as E2. rewrite E1 in E2. exact (each_same l E2 t I).
  - intros H. assert (X : map fold_tok (flat_map E l) = flat_map E (map fold_tok l)).
    { induction l as [|t l IH]; [reflexivity|]. cbn [flat_map map]. rewrite map_app, IH by (intros u I; apply H; now right). f_equal.
      apply fold_expand_same. apply same_expansions. apply H. now left. }
    intros s. split.
    + intro Y. exists (map fold_tok (flat_map E l)). split; [apply Fold_yields; now apply Contractions_yields|].
      rewrite X. apply Contractions_yields; auto. now apply Fold_yields.
    + intros e Y. exists (map fold_tok (flat_map E l)). split; [apply Fold_fails; now apply Contractions_fails|].
      rewrite X. apply Contractions_fails; auto. now apply Fold_fails.
Qed.
End Scanner.

Lemma C84_exact scan : scanner_ok scan ->
  (forall k v, In (k, v) contraction_mappings -> scan (mkReader v None) = mkScanner (split_spaces "" v) None) ->
  forall l, either_order (Fold go_unicode) (Contractions go_unicode scan contraction_mappings) l <->
  forall t, In t l -> forall e, expansion go_unicode contraction_mappings (tvalue t) e <-> expansion go_unicode contraction_mappings (folded (tvalue t)) e.
Proof. intros A B l. now apply C84_exact_aux. Qed.

Lemma C84_still v : contraction v -> contraction (folded v).
Proof.
  pose proof (fun v e => lookup_expansion_spec go_unicode contraction_mappings v e contraction_keys) as S.
  intros (e & H). apply S in H. destruct (folded_contraction _ _ H) as [y G]. exists y. now apply S.
Qed.
