(** * PropExpandLemmas: contractions in any writing (C79). *)

From Verif Require Import Base Utf8 Unicode UnicodeData Token Stream StreamSpec Tokenizer Words Filters ContractionsTable FilterSpec ExpandSpec
  StreamProofs TokenProofs Utf8Proofs AsciiProofs FilterProofs WordsProofs PropFiltersLemmas.
Local Open Scope N_scope.

Notation L := (uToLower go_unicode).

(** ** Lower-casing *)

Fixpoint every (n : nat) (lo stride : N) : list N :=
  match n with O => [] | S n => lo :: every n (lo + stride) stride end.

Definition lower_points (runs : list (N * N * N * Z)) : list N :=
  flat_map (fun x => let '(lo, hi, stride, _) := x in every (N.to_nat ((hi - lo) / stride + 1)) lo stride) runs.

Lemma every_In n : forall lo stride k, (k < n)%nat -> In (lo + N.of_nat k * stride) (every n lo stride).
Proof.
  induction n as [|n IH]; intros lo stride k H; [lia|]. cbn [every]. destruct k as [|k]; [left; lia|]. right.
  replace (lo + N.of_nat (S k) * stride) with (lo + stride + N.of_nat k * stride) by lia. apply IH. lia.
Qed.

Lemma lower_point runs : Forall (fun x : N * N * N * Z => snd (fst x) <> 0) runs -> forall x, lower_lookup runs x = x \/ In x (lower_points runs).
Proof.
  induction 1 as [|[[[lo hi] stride] d] runs H _ IH]; intros x; [now left|]. cbn [lower_lookup]. cbn in H.
  destruct (N.ltb_spec x lo); [now left|]. destruct (N.leb_spec x hi) as [Hi|]; cbn [andb].
  - destruct (N.eqb_spec ((x - lo) mod stride) 0) as [E|]; [|destruct (IH x); [now left|right; apply in_or_app; now right]].
    right. cbn [lower_points flat_map]. apply in_or_app. left.
    pose proof (N.div_mod (x - lo) stride H) as D. rewrite E in D.
    replace x with (lo + N.of_nat (N.to_nat ((x - lo) / stride)) * stride) at 1 by (rewrite N2Nat.id; lia).
    apply every_In. assert ((x - lo) / stride <= (hi - lo) / stride) by (apply N.div_le_mono; lia). lia.
  - destruct (IH x); [now left|right; apply in_or_app; now right].
Qed.

Definition lower_fine (x : N) : bool := valid_rune (L x) && (L (L x) =? L x) && negb (L x =? 8217) && negb (x =? 8217).

Lemma lower_table : forallb (fun x : N * N * N * Z => negb (snd (fst x) =? 0)) lower_runs && forallb lower_fine (lower_points lower_runs) = true.
Proof. vm_cast_no_check (eq_refl true). Qed.

Lemma lower_facts x : (valid_rune x = true -> valid_rune (L x) = true) /\ L (L x) = L x /\ (L x = 8217 <-> x = 8217).
Proof.
  pose proof lower_table as T. apply andb_prop in T as [T1 T2]. rewrite forallb_forall in T2.
  assert (F : Forall (fun x : N * N * N * Z => snd (fst x) <> 0) lower_runs).
  { apply Forall_forall. rewrite forallb_forall in T1. intros y I. specialize (T1 y I). now apply negb_true_iff, N.eqb_neq in T1. }
  destruct (lower_point lower_runs F x) as [E|I].
  - change (L x = x) in E. rewrite !E. tauto.
  - specialize (T2 x I). unfold lower_fine in T2. apply andb_prop in T2 as [T2 A4]. apply andb_prop in T2 as [T2 A3]. apply andb_prop in T2 as [A1 A2].
    apply N.eqb_eq in A2. apply negb_true_iff, N.eqb_neq in A3, A4. tauto.
Qed.

Lemma lower_small x : x < 128 -> L x = lower_ascii x.
Proof.
  intros H. assert (T : forallb (fun n => L (N.of_nat n) =? lower_ascii (N.of_nat n)) (seq 0 128) = true) by (vm_compute; reflexivity).
  rewrite forallb_forall in T. specialize (T (N.to_nat x)). rewrite N2Nat.id in T. apply N.eqb_eq, T. apply in_seq. lia.
Qed.

Lemma lower_runes v : runes (strings_ToLower go_unicode v) = map L (runes v) /\ strings_ToLower go_unicode v = encode (map L (runes v)).
Proof.
  unfold strings_ToLower. destruct (is_ascii_string v) eqn:A.
  - assert (R : runes (map_ascii_lower v) = map L (runes v) /\ is_ascii_string (map_ascii_lower v) = true).
    { induction v as [|c v IH]; [split; reflexivity|]. cbn [is_ascii_string] in A. apply andb_prop in A as [A1 A2]. apply N.ltb_lt in A1.
      destruct (IH A2) as [R B]. cbn [map_ascii_lower].
      assert (Lb : lower_ascii (byte_of c) < 128) by (unfold lower_ascii, in_range; destruct (N.leb_spec 65 (byte_of c)), (N.leb_spec (byte_of c) 90); cbn; lia).
      assert (Bc : byte_of (chr (lower_ascii (byte_of c))) = lower_ascii (byte_of c)) by (apply byte_chr; lia).
      split.
      - rewrite runes_ascii_cons by (rewrite Bc; exact Lb). rewrite (runes_ascii_cons c v) by exact A1. cbn [map]. now rewrite Bc, R, lower_small.
      - cbn [is_ascii_string]. rewrite Bc, B, andb_true_r. now apply N.ltb_lt. }
    destruct R as [R B]. split; [exact R|]. rewrite <- R. symmetry. apply encode_runes, ascii_valid, B.
  - split; [|reflexivity]. rewrite runes_encode. apply map_fix_valid. apply Forall_forall. intros y I. apply in_map_iff in I as (x & <- & I).
    apply lower_facts. pose proof (runes_valid v) as V. rewrite Forall_forall in V. auto.
Qed.

Definition straight (r : N) : N := if r =? 8217 then 39 else r.

Lemma lower_straight r : straight (L r) = L (straight r).
Proof.
  unfold straight. destruct (N.eqb_spec r 8217) as [->|N]; [vm_compute; reflexivity|].
  destruct (N.eqb_spec (L r) 8217) as [E|_]; [|reflexivity]. apply (proj2 (proj2 (lower_facts r))) in E. contradiction.
Qed.

Lemma spelling_lower v : spelling (strings_ToLower go_unicode v) = spelling v.
Proof.
  unfold spelling. fold straight. rewrite (proj1 (lower_runes v)), map_map. apply map_ext. intros r. fold (straight (L r)). fold (straight r).
  rewrite lower_straight. apply lower_facts.
Qed.

(** ** The table *)

Fixpoint variants (w : list N) : list (list N) :=
  match w with
  | [] => [[]]
  | r :: w => map (cons r) (variants w) ++ (if r =? 39 then map (cons 8217) (variants w) else [])
  end.

Lemma variants_In l : In l (variants (map straight l)).
Proof.
  induction l as [|r l IH]; [now left|]. cbn [map variants]. apply in_or_app. unfold straight at 1 3.
  destruct (N.eqb_spec r 8217) as [->|N]; [right|left]; apply in_map, IH.
Qed.

Fixpoint listN_eqb (a b : list N) : bool :=
  match a, b with [], [] => true | x :: a, y :: b => (x =? y) && listN_eqb a b | _, _ => false end.
Lemma listN_eqb_eq a : forall b, listN_eqb a b = true <-> a = b.
Proof.
  induction a as [|x a IH]; intros [|y b]; cbn; try (split; congruence). rewrite andb_true_iff, N.eqb_eq, IH. split; [intros [-> ->]; reflexivity|intros E; injection E as -> ->; auto].
Qed.
Fixpoint lists_eqb (a b : list (list N)) : bool :=
  match a, b with [], [] => true | x :: a, y :: b => listN_eqb x y && lists_eqb a b | _, _ => false end.
Lemma lists_eqb_eq a : forall b, lists_eqb a b = true -> a = b.
Proof.
  induction a as [|x a IH]; intros [|y b]; cbn; try congruence. rewrite andb_true_iff, listN_eqb_eq. intros [-> H]. f_equal. auto.
Qed.

Definition complete : bool :=
  forallb (fun kx : string * string => forallb (fun l => smem (encode l) (map fst contraction_mappings)) (variants (spelling (fst kx)))) contraction_mappings.
Definition functional : bool :=
  let T := map (fun kx : string * string => (spelling (fst kx), map spelling (seg words_scan (snd kx)))) contraction_mappings in
  forallb (fun a => negb (match snd a with [] => true | _ => false end) && forallb (fun b => if listN_eqb (fst a) (fst b) then lists_eqb (snd a) (snd b) else true) T) T.

Lemma table_complete : complete = true.
Proof. vm_cast_no_check (eq_refl true). Qed.
Lemma table_functional : functional = true.
Proof. vm_cast_no_check (eq_refl true). Qed.

Notation lookup := (lookup_expansion go_unicode contraction_mappings).

Lemma lookup_key v x : lookup v = Some x -> exists k, In (k, x) contraction_mappings /\ spelling v = spelling k.
Proof.
  unfold lookup_expansion. destruct (assoc v contraction_mappings) as [y|] eqn:E.
  - intros X. injection X as ->. apply assoc_In in E. eauto.
  - intros X. apply assoc_In in X. exists (strings_ToLower go_unicode v). split; [exact X|]. symmetry. apply spelling_lower.
Qed.

Lemma lookup_found v k x : In (k, x) contraction_mappings -> spelling v = spelling k -> exists y, lookup v = Some y.
Proof.
  intros I S. unfold lookup_expansion. destruct (assoc v contraction_mappings) as [y|] eqn:E; [eauto|].
  destruct (assoc (strings_ToLower go_unicode v) contraction_mappings) as [y|] eqn:E2; [eauto|]. exfalso.
  pose proof table_complete as T. unfold complete in T. rewrite forallb_forall in T. specialize (T _ I). cbn [fst] in T. rewrite <- S in T. rewrite forallb_forall in T.
  specialize (T (map L (runes v))). rewrite <- (proj2 (lower_runes v)) in T. rewrite smem_In in T. rewrite in_map_iff in T.
  destruct T as ((k2 & x2) & E3 & I2).
  - replace (spelling v) with (map straight (map L (runes v))); [apply variants_In|]. unfold spelling. rewrite map_map. apply map_ext. intros r. fold (straight r). apply lower_straight.
  - cbn in E3. subst k2. apply (assoc_none _ _ E2 x2 I2).
Qed.

Lemma spelled_pieces x : map (fun t => spelling (tvalue t)) (map (piece_token go_unicode) (seg words_scan x)) = map spelling (seg words_scan x).
Proof. rewrite map_map. apply map_ext. intros y. now rewrite piece_token_value. Qed.

Lemma expand_alike t1 t2 : same_spelling t1 t2 ->
  map (fun t => spelling (tvalue t)) (expand_token go_unicode words_scan contraction_mappings t1) =
  map (fun t => spelling (tvalue t)) (expand_token go_unicode words_scan contraction_mappings t2).
Proof.
  unfold same_spelling. intros S. unfold expand_token. destruct (lookup (tvalue t1)) as [x1|] eqn:L1.
  - destruct (lookup_key _ _ L1) as (k1 & I1 & S1). destruct (lookup_found (tvalue t2) k1 x1 I1) as (x2 & L2); [congruence|]. rewrite L2.
    destruct (lookup_key _ _ L2) as (k2 & I2 & S2).
    pose proof table_functional as T. unfold functional in T. cbv zeta in T. rewrite forallb_forall in T.
    pose proof (T _ (in_map _ _ _ I1)) as T1. pose proof (T _ (in_map _ _ _ I2)) as T2. cbn [fst snd] in T1, T2. apply andb_prop in T1 as [N1 T1]. apply andb_prop in T2 as [N2 _].
    rewrite forallb_forall in T1. specialize (T1 _ (in_map _ _ _ I2)). cbn [fst snd] in T1.
    replace (listN_eqb (spelling k1) (spelling k2)) with true in T1 by (symmetry; apply listN_eqb_eq; congruence). apply lists_eqb_eq in T1.
    rewrite <- (spelled_pieces x1), <- (spelled_pieces x2) in T1.
    destruct (map (piece_token go_unicode) (seg words_scan x1)) as [|a1 r1] eqn:E1; [rewrite <- (spelled_pieces x1), E1 in N1; discriminate|].
    destruct (map (piece_token go_unicode) (seg words_scan x2)) as [|a2 r2] eqn:E2; [rewrite <- (spelled_pieces x2), E2 in N2; discriminate|]. exact T1.
  - destruct (lookup (tvalue t2)) as [x2|] eqn:L2; [|cbn; congruence]. exfalso.
    destruct (lookup_key _ _ L2) as (k2 & I2 & S2). destruct (lookup_found (tvalue t1) k2 x2 I2) as (x1 & L1'); congruence.
Qed.

Lemma map_Forall2 {A B} (f : A -> B) l1 : forall l2, map f l1 = map f l2 -> Forall2 (fun a b => f a = f b) l1 l2.
Proof. induction l1 as [|a l1 IH]; intros [|b l2] E; try discriminate; [constructor|]. cbn in E. injection E as E1 E2. constructor; auto. Qed.

Lemma contraction_values_fine k v : In (k, v) contraction_mappings -> serr (words_scan (mkReader v None)) = None.
Proof. reflexivity. Qed.

Lemma C79_lemma s1 l1 s2 l2 : Yields s1 l1 -> Yields s2 l2 -> Forall2 same_spelling l1 l2 ->
  exists o1 o2, Yields (Contractions go_unicode words_scan contraction_mappings s1) o1 /\
    Yields (Contractions go_unicode words_scan contraction_mappings s2) o2 /\ Forall2 same_spelling o1 o2.
Proof.
  intros Y1 Y2 F. eexists _, _. split; [apply (Contractions_yields _ _ _ words_scan_ok contraction_values_fine _ _ Y1)|].
  split; [apply (Contractions_yields _ _ _ words_scan_ok contraction_values_fine _ _ Y2)|]. clear Y1 Y2.
  induction F as [|t1 t2 l1 l2 S F IH]; [constructor|]. cbn [flat_map]. apply Forall2_app; [|exact IH].
  apply (map_Forall2 (fun t => spelling (tvalue t))). now apply expand_alike.
Qed.
