(** * PropComposeLemmas: letters with diacritics, composed and decomposed (C93). *)

From Verif Require Import Base Utf8 Unicode Token Stream StreamSpec Filters AsciiTable Ascii DecompTable ComposeSpec FilterSpec StreamProofs Utf8Proofs TokenProofs FilterProofs AsciiProofs.
Local Open Scope N_scope.

(** ** Folding keeps combining marks *)

Lemma no_marks_folded : forallb (fun a : list N * list N * bool => forallb (fun r => negb (combining r)) (fst (fst a))) fold_arms = true.
Proof. vm_compute. reflexivity. Qed.

Lemma small_not_mark r : r < 128 -> combining r = false.
Proof. intros H. unfold combining. apply in_range_false. lia. Qed.

Lemma filter_none {A} (p : A -> bool) l : Forall (fun x => p x = false) l -> filter p l = [].
Proof. induction 1 as [|x l H _ IH]; cbn; [reflexivity|]. now rewrite H. Qed.

Lemma subst_marks r : filter combining (subst_rune r) = filter combining [r].
Proof.
  unfold subst_rune. destruct (find_arm fold_arms r) as [[o f]|] eqn:E; [|reflexivity]. apply find_arm_Entry in E.
  destruct (Entry_facts _ _ _ E) as (_ & A & _). rewrite filter_none; [|eapply Forall_impl; [|exact A]; exact small_not_mark].
  destruct E as (cs & I1 & I2). pose proof no_marks_folded as T. rewrite forallb_forall in T. specialize (T _ I1). cbn [fst] in T. rewrite forallb_forall in T. specialize (T _ I2).
  cbn [filter]. destruct (combining r); [discriminate|reflexivity].
Qed.

Lemma subst_all_marks l : filter combining (flat_map subst_rune l) = filter combining l.
Proof.
  induction l as [|r l IH]; [reflexivity|]. cbn [flat_map]. rewrite filter_app, subst_marks, IH. cbn [filter]. destruct (combining r); reflexivity.
Qed.

Lemma marks_stay s : marks_of (fst (FoldString s)) = marks_of s.
Proof.
  unfold marks_of. rewrite FoldString_spec. destruct (existsb flagged (runes s)); [|reflexivity]. cbn [fst]. rewrite fold_result_runes. apply subst_all_marks.
Qed.

(** ** Decompositions *)

Definition entry_good (e : N * list N) : bool :=
  negb (combining (fst e)) && valid_rune (fst e) && forallb valid_rune (snd e) && existsb combining (snd e).
Lemma entries_good : forallb entry_good decompositions = true.
Proof. vm_compute. reflexivity. Qed.
Lemma entry_facts r ds : In (r, ds) decompositions -> combining r = false /\ Forall (fun r => valid_rune r = true) ds /\ filter combining ds <> [].
Proof.
  intros I. pose proof entries_good as T. rewrite forallb_forall in T. specialize (T _ I). unfold entry_good in T. cbn [fst snd] in T.
  apply andb_true_iff in T. destruct T as [T T4]. apply andb_true_iff in T. destruct T as [T T3]. apply andb_true_iff in T. destruct T as [T1 _].
  split; [now apply negb_true_iff in T1|]. split; [rewrite forallb_forall in T3; now apply Forall_forall|].
  apply existsb_exists in T4. destruct T4 as (m & Im & Hm). intros C. assert (In m (filter combining ds)) by now apply filter_In. rewrite C in *. contradiction.
Qed.

Lemma decomposed_marks x y : decomposed x y -> x = y \/ (length (filter combining x) < length (filter combining y))%nat.
Proof.
  assert (G : decomposed x y -> (length (filter combining x) <= length (filter combining y))%nat /\ (x = y \/ (length (filter combining x) < length (filter combining y))%nat)); [|now intros H; apply G].
  induction 1 as [|r x y D (L & IH)|r ds x y I D (L & IH)].
  - split; [lia|now left].
  - cbn [filter]. destruct (combining r); cbn [length]; (split; [lia|]); (destruct IH as [->|IH]; [now left|right; lia]).
  - destruct (entry_facts _ _ I) as (N & _ & M). rewrite filter_app, app_length. cbn [filter]. rewrite N. destruct (filter combining ds); [congruence|]. cbn [length]. split; [|right]; lia.
Qed.

Lemma decomposed_valid x y : decomposed x y -> Forall (fun r => valid_rune r = true) x -> Forall (fun r => valid_rune r = true) y.
Proof.
  induction 1 as [|r x y D IH|r ds x y I D IH]; intros V; [constructor| |]; inversion V; subst; [constructor; auto|].
  apply Forall_app. split; [apply (entry_facts _ _ I)|auto].
Qed.

Lemma runes_encode_valid x : Forall (fun r => valid_rune r = true) x -> runes (encode x) = x.
Proof. intros V. rewrite runes_encode. now apply map_fix_valid. Qed.

Lemma C93_exact x y : Forall (fun r => valid_rune r = true) x -> decomposed x y ->
  (fst (FoldString (encode x)) = fst (FoldString (encode y)) <-> x = y).
Proof.
  intros V D. split; [|now intros ->]. intros E. apply (f_equal marks_of) in E. rewrite !marks_stay in E. unfold marks_of in E.
  rewrite !runes_encode_valid in E by eauto using decomposed_valid. destruct (decomposed_marks _ _ D) as [H|H]; [exact H|]. rewrite E in H. lia.
Qed.

Lemma decomposed_e : decomposed [233] [101; 769].
Proof. change [101; 769] with ([101; 769] ++ []). constructor; [|constructor]. assert (H : existsb (fun e => (fst e =? 233) && match snd e with [a; b] => (a =? 101) && (b =? 769) | _ => false end) decompositions = true) by (vm_compute; reflexivity).
  apply existsb_exists in H. destruct H as ([r ds] & I & H). cbn [fst snd] in H. apply andb_true_iff in H. destruct H as [H1 H2]. apply N.eqb_eq in H1. subst r.
  destruct ds as [|a [|b [|]]]; try discriminate. apply andb_true_iff in H2. destruct H2 as [Ha Hb]. apply N.eqb_eq in Ha, Hb. subst. exact I.
Qed.

Lemma C93_refutation : ~ (forall x y, Forall (fun r => valid_rune r = true) x -> decomposed x y -> fst (FoldString (encode x)) = fst (FoldString (encode y))).
Proof.
  intros H. assert (V : Forall (fun r => valid_rune r = true) [233]) by (constructor; [reflexivity|constructor]).
  specialize (H _ _ V decomposed_e). apply (C93_exact _ _ V decomposed_e) in H. discriminate.
Qed.

(** ** Normalizing first *)

Lemma Norm_values U isNormal normalize : (forall v, isNormal v = false -> normalize v <> EmptyString) -> forall s l, Yields s l ->
  exists l', Yields (Norm U isNormal normalize s) l' /\ map tvalue l' = map (fun t => normal_form isNormal normalize (tvalue t)) l.
Proof.
  intros H s l Y. destruct (Forall2_exists (fun t t' => maps_to [norm_token U isNormal normalize] t t' /\ tvalue t' = normal_form isNormal normalize (tvalue t)) l) as (l' & F).
  - intros t _. unfold normal_form. destruct (isNormal (tvalue t)) eqn:E.
    + exists t. split; [|reflexivity]. apply maps_to_single. unfold norm_token. now rewrite E.
    + destruct (NewToken_cons U _ true (H _ E)) as (t' & Nt). exists t'. split; [apply maps_to_single; unfold norm_token; now rewrite E|]. now apply NewToken_value in Nt.
  - exists l'. split; [eapply Mapper_yields; [exact Y|]; eapply Forall2_impl'; [|exact F]; cbn; tauto|].
    clear Y. induction F as [|t t' l l' [_ E] F IH]; [reflexivity|]. cbn [map]. now rewrite E, IH.
Qed.

Lemma Fold_values U s l : Yields s l -> exists l', Yields (Fold U s) l' /\ map tvalue l' = map (fun t => fst (FoldString (tvalue t))) l.
Proof.
  intros Y. destruct (folder_maps U l) as (l' & M & F). exists l'. split; [eapply Mapper_yields; eassumption|]. clear - F.
  induction F as [|t t' l l' E F IH]; [reflexivity|]. cbn [map]. rewrite IH. f_equal. unfold folds_to in E. destruct (FoldString (tvalue t)) as [f [|]] eqn:Ef; cbn [fst].
  - now apply NewToken_value in E.
  - rewrite FoldString_spec in Ef. destruct (existsb _ _); [discriminate|]. injection Ef as <-. now subst.
Qed.

Lemma C93_norm U isNormal normalize : (forall v, isNormal v = false -> normalize v <> EmptyString) -> unifies isNormal normalize ->
  forall s1 s2 l1 l2, Yields s1 l1 -> Yields s2 l2 ->
  Forall2 (fun t u => exists x y, Forall (fun r => valid_rune r = true) x /\ decomposed x y /\ tvalue t = encode x /\ tvalue u = encode y) l1 l2 ->
  exists o1 o2, Yields (ApplyFilters [Norm U isNormal normalize; Fold U] s1) o1 /\ Yields (ApplyFilters [Norm U isNormal normalize; Fold U] s2) o2 /\
    map tvalue o1 = map tvalue o2 /\ map tvalue o1 = map (fun t => fst (FoldString (normal_form isNormal normalize (tvalue t)))) l1.
Proof.
  intros H Un s1 s2 l1 l2 Y1 Y2 F. unfold ApplyFilters. cbn [fold_left].
  destruct (Norm_values U _ _ H _ _ Y1) as (n1 & N1 & V1). destruct (Norm_values U _ _ H _ _ Y2) as (n2 & N2 & V2).
  destruct (Fold_values U _ _ N1) as (o1 & O1 & W1). destruct (Fold_values U _ _ N2) as (o2 & O2 & W2).
  exists o1, o2. split; [exact O1|]. split; [exact O2|].
  assert (E1 : map tvalue o1 = map (fun t => fst (FoldString (normal_form isNormal normalize (tvalue t)))) l1).
  { rewrite W1. transitivity (map (fun v => fst (FoldString v)) (map tvalue n1)); [now rewrite map_map|]. rewrite V1, map_map. reflexivity. }
  assert (E2 : map tvalue o2 = map (fun t => fst (FoldString (normal_form isNormal normalize (tvalue t)))) l2).
  { rewrite W2. transitivity (map (fun v => fst (FoldString v)) (map tvalue n2)); [now rewrite map_map|]. rewrite V2, map_map. reflexivity. }
  split; [|exact E1]. rewrite E1, E2. clear - F Un. induction F as [|t u l1 l2 (x & y & Vx & D & Ex & Ey) F IH]; [reflexivity|]. cbn [map]. rewrite IH, Ex, Ey, (Un x y Vx D). reflexivity.
Qed.

(** The other order: a composed letter is folded before it can be decomposed, a decomposed one is composed afterwards. *)
Lemma C93_order U isNormal normalize : isNormal "e"%string = true -> isNormal (encode [101; 769]) = false -> normalize (encode [101; 769]) = encode [233] ->
  forall s1 s2, Yields s1 [mkToken (encode [233]) false false false] -> Yields s2 [mkToken (encode [101; 769]) false false false] ->
  exists o1 o2, Yields (ApplyFilters [Fold U; Norm U isNormal normalize] s1) o1 /\ Yields (ApplyFilters [Fold U; Norm U isNormal normalize] s2) o2 /\
    map tvalue o1 = ["e"%string] /\ map tvalue o2 = [encode [233]].
Proof.
  intros A B C s1 s2 Y1 Y2. unfold ApplyFilters. cbn [fold_left].
  destruct (NewToken_cons U "e" true) as (t1 & Nt1); [discriminate|]. destruct (NewToken_cons U (encode [233]) true) as (t2 & Nt2); [discriminate|].
  exists [t1], [t2]. pose proof (proj1 (NewToken_value _ _ _ _ Nt1)) as V1. pose proof (proj1 (NewToken_value _ _ _ _ Nt2)) as V2.
  assert (F1 : FoldString (encode [233]) = ("e"%string, true)) by (vm_compute; reflexivity).
  assert (F2 : FoldString (encode [101; 769]) = (encode [101; 769], false)) by (vm_compute; reflexivity).
  split; [|split; [|cbn [map]; rewrite V1, V2; auto]].
  - assert (Y : Yields (Fold U s1) [t1]). { eapply Mapper_yields; [exact Y1|]. constructor; [|constructor]. apply maps_to_single. unfold folder. cbn [tvalue]. rewrite F1. exact Nt1. }
    eapply Mapper_yields; [exact Y|]. constructor; [|constructor]. apply maps_to_single. unfold norm_token. rewrite V1, A. reflexivity.
  - assert (Y : Yields (Fold U s2) [mkToken (encode [101; 769]) false false false]). { eapply Mapper_yields; [exact Y2|]. constructor; [|constructor]. apply maps_to_single. unfold folder. cbn [tvalue]. rewrite F2. reflexivity. }
    eapply Mapper_yields; [exact Y|]. constructor; [|constructor]. apply maps_to_single. unfold norm_token. cbn [tvalue]. rewrite B, C. exact Nt2.
Qed.

(** A normalizer that fulfils the contract. *)
Fixpoint find_decomp (t : list (N * list N)) (r : N) : list N :=
  match t with [] => [r] | (a, ds) :: t' => if a =? r then ds else find_decomp t' r end.
Definition full (l : list N) : list N := flat_map (find_decomp decompositions) l.
Definition toy_normalize (v : string) : string := encode (full (runes v)).
Definition toy_isNormal (v : string) : bool := seqb v (toy_normalize v).

Lemma decomp_found : forallb (fun e => match list_eq_dec N.eq_dec (find_decomp decompositions (fst e)) (snd e) with left _ => true | right _ => false end) decompositions = true.
Proof. vm_compute. reflexivity. Qed.
Lemma decomp_full : forallb (fun e => match list_eq_dec N.eq_dec (full (snd e)) (snd e) with left _ => true | right _ => false end) decompositions = true.
Proof. vm_compute. reflexivity. Qed.
Lemma decomp_nonempty : forallb (fun e : N * list N => match snd e with [] => false | _ => true end) decompositions = true.
Proof. vm_compute. reflexivity. Qed.

Lemma full_app a b : full (a ++ b) = full a ++ full b.
Proof. apply flat_map_app. Qed.

Lemma full_decomposed x y : decomposed x y -> full x = full y.
Proof.
  induction 1 as [|r x y D IH|r ds x y I D IH]; [reflexivity| |].
  - unfold full in *. cbn [flat_map]. now rewrite IH.
  - rewrite full_app, <- IH. change (r :: x) with ([r] ++ x). rewrite full_app. f_equal.
    pose proof decomp_found as T1. pose proof decomp_full as T2. rewrite forallb_forall in T1, T2. specialize (T1 _ I). specialize (T2 _ I). cbn [fst snd] in T1, T2.
    destruct (list_eq_dec N.eq_dec (find_decomp decompositions r) ds) as [E1|]; [|discriminate]. destruct (list_eq_dec N.eq_dec (full ds) ds) as [E2|]; [|discriminate].
    rewrite E2. unfold full. cbn [flat_map]. rewrite app_nil_r. exact E1.
Qed.

Lemma toy_form v : normal_form toy_isNormal toy_normalize v = toy_normalize v.
Proof. unfold normal_form, toy_isNormal. destruct (seqb v (toy_normalize v)) eqn:E; [now apply seqb_eq in E|reflexivity]. Qed.

Lemma toy_unifies : unifies toy_isNormal toy_normalize.
Proof.
  intros x y V D. rewrite !toy_form. unfold toy_normalize. rewrite !runes_encode_valid by eauto using decomposed_valid. now rewrite (full_decomposed _ _ D).
Qed.

Lemma find_nonempty t r : forallb (fun e : N * list N => match snd e with [] => false | _ => true end) t = true -> find_decomp t r <> [].
Proof.
  induction t as [|[a ds] t IH]; cbn; [discriminate|]. intros H. apply andb_true_iff in H. destruct H as [H1 H2]. destruct (a =? r); [destruct ds; discriminate|auto].
Qed.

Lemma toy_nonempty v : toy_isNormal v = false -> toy_normalize v <> EmptyString.
Proof.
  intros E C. unfold toy_normalize in C. destruct (runes v) as [|r l] eqn:R.
  - apply runes_nil in R. subst v. discriminate E.
  - apply (f_equal runes) in C. rewrite runes_encode in C. cbn [runes] in C. unfold full in C. cbn [flat_map] in C. pose proof (find_nonempty decompositions r decomp_nonempty) as H.
    destruct (find_decomp decompositions r); [congruence|discriminate].
Qed.
