(** * PropFoldExpandLemmas: folding and expanding contractions in either order (C84). *)

From Verif Require Import Base Utf8 Unicode UnicodeData Token Stream StreamSpec Tokenizer Words Filters AsciiTable Ascii ContractionsTable FilterSpec ExpandSpec
  StreamProofs TokenProofs Utf8Proofs AsciiProofs FilterProofs WordsProofs Sources PropFiltersLemmas PropAsciiLemmas PropExpandLemmas.
Local Open Scope N_scope.

Lemma find_curly : find_arm fold_arms 8217 = Some ([39], true).
Proof. vm_compute. reflexivity. Qed.

Lemma plain_subst r : r < 128 \/ r = 8217 -> subst_rune r = [straight r].
Proof.
  unfold straight. intros [H| ->].
  - rewrite subst_rune_no_entry; [|intros out flag E; apply Entry_facts in E; lia].
    destruct (N.eqb_spec r 8217); [lia|reflexivity].
  - unfold subst_rune. now rewrite find_curly.
Qed.

Lemma not_error v : ~ In RuneError (runes v) -> encode (runes v) = v.
Proof.
  intro N. apply encode_runes. revert N. induction v as [|r v V R U IHv|c v R U B IHv] using decode_ind; intro N; [reflexivity| |].
  - match goal with H : runes _ = _ :: _, H2 : valid_utf8 _ = valid_utf8 _ |- _ => rewrite H2; rewrite H in N end.
    apply IHv. intro I. apply N. now right.
  - match goal with H : runes _ = _ :: _ |- _ => rewrite H in N end. exfalso. apply N. now left.
Qed.

Lemma plain_encode v : plain v -> encode (runes v) = v.
Proof.
  intro P. apply not_error. intro I. unfold plain in P. rewrite Forall_forall in P. apply P in I. unfold RuneError in I. lia.
Qed.

Lemma plain_folded v : plain v -> folded v = encode (map straight (runes v)).
Proof.
  intro P. unfold folded. rewrite FoldString_spec.
  assert (S : flat_map subst_rune (runes v) = map straight (runes v)).
  { unfold plain in P. induction P as [|r rs H P IH]; [reflexivity|]. cbn [flat_map map]. now rewrite plain_subst, IH. }
  destruct (existsb flagged (runes v)) eqn:E; cbn [fst]; [now rewrite S|].
  rewrite <- (plain_encode v P) at 1. f_equal. clear S. unfold plain in P. induction P as [|r rs H P IH]; [reflexivity|].
  cbn [existsb map] in *. apply orb_false_elim in E as [E1 E2]. rewrite <- IH by exact E2. f_equal.
  unfold straight. destruct (N.eqb_spec r 8217) as [->|]; [|reflexivity]. exfalso. unfold flagged in E1. rewrite find_curly in E1. discriminate.
Qed.

Definition same (a b : option string) : bool :=
  match a, b with Some x, Some y => seqb x y | None, None => true | _, _ => false end.
Definition table_straight : bool :=
  forallb (fun kx : string * string =>
    same (assoc (encode (map straight (runes (fst kx)))) contraction_mappings) (Some (snd kx)) &&
    forallb (fun l => same (assoc (encode l) contraction_mappings) (Some (snd kx))) (variants (runes (fst kx)))) contraction_mappings.
Lemma table_straight_true : table_straight = true.
Proof. vm_cast_no_check (eq_refl true). Qed.

Lemma same_eq a x : same a (Some x) = true -> a = Some x.
Proof. destruct a; cbn; [|discriminate]. intro H. apply seqb_eq in H. now subst. Qed.

Lemma plain_straight v : plain v -> runes (encode (map straight (runes v))) = map straight (runes v).
Proof.
  intro P. rewrite runes_encode. apply map_fix_valid. apply Forall_forall. intros r I. apply in_map_iff in I as (x & <- & I).
  unfold plain in P. rewrite Forall_forall in P. apply P in I. unfold straight. destruct (N.eqb_spec x 8217); [reflexivity|].
  apply valid_rune_spec. lia.
Qed.

Lemma plain_assoc v : plain v -> assoc (encode (map straight (runes v))) contraction_mappings = assoc v contraction_mappings.
Proof.
  intro P. pose proof table_straight_true as T. unfold table_straight in T. rewrite forallb_forall in T.
  destruct (assoc v contraction_mappings) as [x|] eqn:A.
  - apply assoc_In in A. specialize (T _ A). cbn [fst snd] in T. apply andb_prop in T as [T _]. now apply same_eq.
  - destruct (assoc (encode (map straight (runes v))) contraction_mappings) as [x|] eqn:B; [|reflexivity].
    apply assoc_In in B. specialize (T _ B). cbn [fst snd] in T. apply andb_prop in T as [_ T]. rewrite forallb_forall in T.
    specialize (T (runes v)). rewrite plain_straight in T by exact P. specialize (T (variants_In (runes v))).
    rewrite plain_encode in T by exact P. apply same_eq in T. congruence.
Qed.

Lemma plain_lower v : plain v -> plain (strings_ToLower go_unicode v).
Proof.
  unfold plain. rewrite (proj1 (lower_runes v)). intro P. apply Forall_forall. intros r I. apply in_map_iff in I as (x & <- & I).
  rewrite Forall_forall in P. apply P in I. destruct I as [H| ->]; [left|right; vm_compute; reflexivity].
  rewrite lower_small by exact H. unfold lower_ascii, in_range. destruct (N.leb_spec 65 x), (N.leb_spec x 90); cbn; lia.
Qed.

Lemma plain_lookup v : plain v -> lookup (folded v) = lookup v.
Proof.
  intro P. rewrite plain_folded by exact P. unfold lookup_expansion. rewrite plain_assoc by exact P.
  destruct (assoc v contraction_mappings); [reflexivity|]. rewrite <- (plain_assoc (strings_ToLower go_unicode v)) by now apply plain_lower.
  f_equal. rewrite (proj2 (lower_runes (encode _))), plain_straight by exact P. rewrite (proj1 (lower_runes v)). f_equal.
  rewrite !map_map. apply map_ext. intro r. symmetry. apply lower_straight.
Qed.

(** The filter on one token. *)
Definition fold_tok (t : token) : token :=
  match folder go_unicode t with Some t' => t' | None => t end.

Lemma folder_some t : folder go_unicode t = Some (fold_tok t) /\ tvalue (fold_tok t) = folded (tvalue t).
Proof.
  unfold fold_tok, folder, folded. destruct (FoldString (tvalue t)) as [f [|]] eqn:E; cbn [fst].
  - destruct (NewToken_cons go_unicode f true (FoldString_nonempty _ _ E)) as (t' & N). rewrite N. split; [reflexivity|].
    now apply NewToken_value in N.
  - split; [reflexivity|]. rewrite FoldString_spec in E. destruct (existsb flagged _); [discriminate|]. now injection E.
Qed.

Lemma Fold_yields s l : Yields s l -> Yields (Fold go_unicode s) (map fold_tok l).
Proof.
  intro Y. destruct (C18_general_lemma [folder go_unicode] s l (map fold_tok l)) as (H & _); [|now apply H].
  clear Y. induction l as [|t l IH]; cbn; constructor; try exact IH. cbn. now rewrite (proj1 (folder_some t)).
Qed.
Lemma Fold_fails s l e : Fails s l e -> Fails (Fold go_unicode s) (map fold_tok l) e.
Proof.
  intro Y. destruct (C18_general_lemma [folder go_unicode] s l (map fold_tok l)) as (_ & H); [|now apply H].
  clear Y. induction l as [|t l IH]; cbn; constructor; try exact IH. cbn. now rewrite (proj1 (folder_some t)).
Qed.

Section Scanner.
Variable scan : oracle.
Hypothesis scan_ok : scanner_ok scan.
Hypothesis splits : splits_expansions scan.

Lemma expand_fold t : (contraction (tvalue t) \/ contraction (folded (tvalue t)) -> plain (tvalue t)) ->
  map fold_tok (expand_token go_unicode scan contraction_mappings t) = expand_token go_unicode scan contraction_mappings (fold_tok t).
Proof.
  intro H. assert (E : lookup (folded (tvalue t)) = lookup (tvalue t)).
  { destruct (lookup (tvalue t)) as [x|] eqn:A.
    - rewrite <- A. apply plain_lookup, H. left. exists x. now apply lookup_expansion_spec; [apply contraction_keys|].
    - destruct (lookup (folded (tvalue t))) as [x|] eqn:B; [|reflexivity]. rewrite <- A, <- B. apply plain_lookup, H. right. exists x.
      now apply lookup_expansion_spec; [apply contraction_keys|]. }
  unfold expand_token. rewrite (proj2 (folder_some t)), E. destruct (lookup (tvalue t)) as [x|] eqn:A; [|reflexivity].
  assert (I : exists k, In (k, x) contraction_mappings).
  { apply lookup_expansion_spec in A; [|apply contraction_keys]. destruct A as [I|[_ I]]; eauto. }
  destruct I as (k & I). destruct (map (piece_token go_unicode) (seg scan x)) as [|y ys] eqn:M; [reflexivity|]. rewrite <- M.
  rewrite map_map. apply map_ext_in. intros p Hp. unfold fold_tok, folder. rewrite piece_token_value.
  rewrite FoldString_ascii; [reflexivity|].
  unfold seg in Hp. rewrite (splits _ _ I) in Hp. cbn in Hp.
  pose proof contraction_pieces as T. rewrite forallb_forall in T. specialize (T _ I). cbn [snd] in T.
  apply andb_prop in T as [_ T]. rewrite forallb_forall in T. specialize (T _ Hp). unfold piece_ok in T.
  apply andb_prop in T as [T _]. now apply andb_prop in T as [T _].
Qed.

Lemma expand_fold_all l : (forall t, In t l -> contraction (tvalue t) \/ contraction (folded (tvalue t)) -> plain (tvalue t)) ->
  map fold_tok (flat_map (expand_token go_unicode scan contraction_mappings) l) =
  flat_map (expand_token go_unicode scan contraction_mappings) (map fold_tok l).
Proof.
  induction l as [|t l IH]; intro H; [reflexivity|]. cbn [flat_map map]. rewrite map_app, IH, expand_fold; auto using in_eq.
  intros t' I. apply H. now right.
Qed.

Lemma C84_partial_lemma_aux s l :
  (forall t, In t l -> contraction (tvalue t) \/ contraction (folded (tvalue t)) -> plain (tvalue t)) ->
  let Expand := Contractions go_unicode scan contraction_mappings in
  let Fold := Fold go_unicode in
  (Yields s l -> exists o, Yields (Fold (Expand s)) o /\ Yields (Expand (Fold s)) o) /\
  (forall e, Fails s l e -> exists o, Fails (Fold (Expand s)) o e /\ Fails (Expand (Fold s)) o e).
Proof.
  intros H Expand Fold. pose proof (splits_fine scan splits) as fine. split.
  - intro Y. exists (map fold_tok (flat_map (expand_token go_unicode scan contraction_mappings) l)). split.
    + apply Fold_yields. now apply Contractions_yields.
    + rewrite expand_fold_all by exact H. apply Contractions_yields; auto. now apply Fold_yields.
  - intros e Y. exists (map fold_tok (flat_map (expand_token go_unicode scan contraction_mappings) l)). split.
    + apply Fold_fails. now apply Contractions_fails.
    + rewrite expand_fold_all by exact H. apply Contractions_fails; auto. now apply Fold_fails.
Qed.
End Scanner.

Lemma C84_partial_lemma scan : scanner_ok scan ->
  (forall k v, In (k, v) contraction_mappings -> scan (mkReader v None) = mkScanner (split_spaces "" v) None) ->
  forall s l, (forall t, In t l -> contraction (tvalue t) \/ contraction (folded (tvalue t)) -> plain (tvalue t)) ->
  let Expand := Contractions go_unicode scan contraction_mappings in
  let Fold := Fold go_unicode in
  (Yields s l -> exists o, Yields (Fold (Expand s)) o /\ Yields (Expand (Fold s)) o) /\
  (forall e, Fails s l e -> exists o, Fails (Fold (Expand s)) o e /\ Fails (Expand (Fold s)) o e).
Proof. intros A B s l H. now apply C84_partial_lemma_aux. Qed.

(** "dön't" *)
Definition umlaut : token := tok (encode [100; 246; 110; 39; 116]).
(** A capital I with a dot, then "'m". *)
Definition dotted : token := tok (encode [304; 39; 109]).

Definition expand_then_fold (t : token) : list string := map tvalue (map fold_tok (expand_token go_unicode words_scan contraction_mappings t)).
Definition fold_then_expand (t : token) : list string := map tvalue (expand_token go_unicode words_scan contraction_mappings (fold_tok t)).

Lemma witnesses :
  (expand_then_fold umlaut = ["don't"] /\ fold_then_expand umlaut = ["do"; " "; "not"])%string /\
  (expand_then_fold dotted = ["i"; " "; "am"] /\ fold_then_expand dotted = ["I"; " "; "am"])%string.
Proof. vm_compute. repeat split; reflexivity. Qed.

Lemma C84_refutation :
  ~ (forall s l, Yields s l ->
       exists o, Yields (Fold go_unicode (Contractions go_unicode words_scan contraction_mappings s)) o /\
                 Yields (Contractions go_unicode words_scan contraction_mappings (Fold go_unicode s)) o).
Proof.
  intro H. destruct (H (source [umlaut] None) [umlaut] (source_yields _)) as (o & Y1 & Y2).
  pose proof (splits_fine words_scan words_scan_splits) as fine.
  assert (Z1 : Yields (Fold go_unicode (Contractions go_unicode words_scan contraction_mappings (source [umlaut] None)))
    (map fold_tok (flat_map (expand_token go_unicode words_scan contraction_mappings) [umlaut]))).
  { apply Fold_yields, Contractions_yields; [exact words_scan_ok|exact fine|apply source_yields]. }
  assert (Z2 : Yields (Contractions go_unicode words_scan contraction_mappings (Fold go_unicode (source [umlaut] None)))
    (flat_map (expand_token go_unicode words_scan contraction_mappings) [fold_tok umlaut])).
  { apply Contractions_yields; [exact words_scan_ok|exact fine|apply (Fold_yields _ [umlaut]), source_yields]. }
  pose proof (Yields_inj _ _ _ Y1 Z1) as E1. pose proof (Yields_inj _ _ _ Y2 Z2) as E2. rewrite E1 in E2.
  apply (f_equal (map tvalue)) in E2. cbn [flat_map] in E2. rewrite !app_nil_r in E2.
  destruct witnesses as [[W1 W2] _]. unfold expand_then_fold in W1. unfold fold_then_expand in W2. rewrite W1, W2 in E2. discriminate E2.
Qed.
