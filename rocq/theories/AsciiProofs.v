(** * AsciiProofs: facts about FoldString and the ascii.Fold filter. *)

From Verif Require Import Base Utf8 Unicode Token Stream StreamSpec Filters AsciiTable LuceneTable Ascii
  StreamProofs Utf8Proofs TokenProofs FilterProofs.
Local Open Scope N_scope.

(** [r] has the table entry [out] (in the arm with [folded = true] iff [flag]). *)
Definition Entry (r : N) (out : list N) (flag : bool) : Prop :=
  exists cs, In (cs, out, flag) fold_arms /\ In r cs.

Definition LuceneEntry (r : N) (out : list N) : Prop :=
  exists cs, In (cs, out) lucene_arms /\ In r cs.

Lemma mem_N_In x l : mem_N x l = true <-> In x l.
Proof.
  unfold mem_N. rewrite existsb_exists. split.
  - intros (y & H & E). apply N.eqb_eq in E. congruence.
  - intros H. exists x. split; [assumption|apply N.eqb_refl].
Qed.

Lemma find_arm_some arms r out flag : find_arm arms r = Some (out, flag) ->
  exists cs, In (cs, out, flag) arms /\ In r cs.
Proof.
  induction arms as [|[[cs o] f] arms IH]; cbn; [discriminate|].
  destruct (mem_N r cs) eqn:E.
  - intros H. inversion H; subst. exists cs. split; [now left|now apply mem_N_In].
  - intros H. destruct (IH H) as (cs' & A & B). exists cs'. split; [now right|assumption].
Qed.

Lemma find_arm_none arms r : find_arm arms r = None ->
  forall cs out flag, In (cs, out, flag) arms -> ~ In r cs.
Proof.
  induction arms as [|[[cs o] f] arms IH]; cbn; [intros _ cs out flag []|].
  destruct (mem_N r cs) eqn:E; [discriminate|]. intros H cs' out flag [A|A].
  - inversion A; subst. rewrite <- mem_N_In. congruence.
  - eapply IH; eauto.
Qed.

(** The runes occurring in the table, each once. *)
Definition all_cases : list N := flat_map (fun a => fst (fst a)) fold_arms.

Fixpoint increasing_after (x : N) (l : list N) : bool :=
  match l with [] => true | y :: l' => (x <? y) && increasing_after y l' end.

Fixpoint nodupb (l : list N) : bool :=
  match l with [] => true | x :: l' => negb (mem_N x l') && nodupb l' end.

Lemma nodupb_NoDup l : nodupb l = true -> NoDup l.
Proof.
  induction l as [|x l IH]; cbn; [constructor|]. intros H. apply andb_true_iff in H. destruct H as [A B].
  constructor; [|auto]. rewrite <- mem_N_In. destruct (mem_N x l); [discriminate|congruence].
Qed.

Lemma cases_nodup : NoDup all_cases.
Proof. apply nodupb_NoDup. vm_compute. reflexivity. Qed.

Lemma NoDup_flat_map_unique {A B} (f : A -> list B) l x a b :
  NoDup (flat_map f l) -> In a l -> In b l -> In x (f a) -> In x (f b) -> a = b.
Proof.
  induction l as [|c l IH]; cbn; [intros _ []|]. intros ND Ha Hb Xa Xb.
  assert (D : forall y, In y (f c) -> In y (flat_map f l) -> False).
  { clear - ND. intros y Y1 Y2. revert ND. induction (f c) as [|z zs IHz]; cbn in *; [contradiction|].
    intros ND. inversion ND; subst. destruct Y1 as [<-|Y1]; [|auto]. apply H1. apply in_or_app. now right. }
  assert (ND' : NoDup (flat_map f l)).
  { clear - ND. induction (f c) as [|z zs IHz]; cbn in *; [assumption|]. inversion ND; auto. }
  destruct Ha as [<-|Ha], Hb as [<-|Hb]; auto.
  - exfalso. eapply D; [exact Xa|]. apply in_flat_map. eauto.
  - exfalso. eapply D; [exact Xb|]. apply in_flat_map. eauto.
Qed.

Lemma Entry_unique r o1 f1 o2 f2 : Entry r o1 f1 -> Entry r o2 f2 -> o1 = o2 /\ f1 = f2.
Proof.
  intros (c1 & A1 & B1) (c2 & A2 & B2).
  pose proof (NoDup_flat_map_unique (fun a : list N * list N * bool => fst (fst a)) fold_arms r
    (c1, o1, f1) (c2, o2, f2) cases_nodup A1 A2 B1 B2) as E. inversion E; auto.
Qed.

Lemma find_arm_Entry r out flag : find_arm fold_arms r = Some (out, flag) <-> Entry r out flag.
Proof.
  split; [apply find_arm_some|]. intros E. destruct (find_arm fold_arms r) as [[o f]|] eqn:F.
  - apply find_arm_some in F. destruct (Entry_unique _ _ _ _ _ F E) as [-> ->]. reflexivity.
  - destruct E as (cs & A & B). exfalso. eapply find_arm_none; eauto.
Qed.

Definition table_ok : bool :=
  forallb (fun a : list N * list N * bool =>
    let '(cs, out, _) := a in
    forallb (fun r => 128 <=? r) cs && forallb (fun r => r <? 128) out && negb (Nat.eqb (length out) 0))
    fold_arms.

Lemma table_ok_true : table_ok = true.
Proof. vm_compute. reflexivity. Qed.

Lemma Entry_facts r out flag : Entry r out flag ->
  128 <= r /\ Forall (fun x => x < 128) out /\ out <> [].
Proof.
  intros (cs & A & B). pose proof table_ok_true as T. unfold table_ok in T.
  rewrite forallb_forall in T. specialize (T _ A). cbn in T.
  apply andb_true_iff in T. destruct T as [T T3]. apply andb_true_iff in T. destruct T as [T1 T2].
  rewrite forallb_forall in T1, T2. split; [|split].
  - apply N.leb_le. auto.
  - apply Forall_forall. intros x Hx. apply N.ltb_lt. auto.
  - destruct out; [discriminate T3|discriminate].
Qed.

(** What replaces a rune. *)
Definition subst_rune (r : N) : list N :=
  match find_arm fold_arms r with Some (out, _) => out | None => [r] end.
Definition flagged (r : N) : bool :=
  match find_arm fold_arms r with Some (_, flag) => flag | None => false end.

Lemma find_arm_small r : r < 128 -> find_arm fold_arms r = None.
Proof.
  intros H. destruct (find_arm fold_arms r) as [[o f]|] eqn:E; [|reflexivity].
  apply find_arm_Entry in E. apply Entry_facts in E. lia.
Qed.

Lemma fold_step_spec acc f r : fold_step (acc, f) r = ((acc ++ encode (subst_rune r))%string, f || flagged r).
Proof.
  unfold fold_step, subst_rune, flagged. destruct (N.ltb_spec r 128) as [H|H].
  - rewrite find_arm_small by assumption. cbn. now rewrite sapp_nil_r, orb_false_r.
  - destruct (find_arm fold_arms r) as [[o g]|]; [reflexivity|]. cbn. now rewrite sapp_nil_r, orb_false_r.
Qed.

Lemma fold_steps rs : forall acc f,
  fold_left fold_step rs (acc, f) = ((acc ++ encode (flat_map subst_rune rs))%string, f || existsb flagged rs).
Proof.
  induction rs as [|r rs IH]; intros acc f.
  - cbn. now rewrite sapp_nil_r, orb_false_r.
  - cbn [fold_left]. rewrite fold_step_spec, IH. cbn [flat_map existsb].
    rewrite encode_app, sapp_assoc, orb_assoc. reflexivity.
Qed.

Lemma FoldString_spec s :
  FoldString s = if existsb flagged (runes s) then (encode (flat_map subst_rune (runes s)), true) else (s, false).
Proof. unfold FoldString. rewrite fold_steps. cbn. destruct (existsb flagged (runes s)); reflexivity. Qed.

Lemma subst_rune_entry r out flag : Entry r out flag -> subst_rune r = out.
Proof. intros E. apply find_arm_Entry in E. unfold subst_rune. now rewrite E. Qed.

Lemma subst_rune_no_entry r : (forall out flag, ~ Entry r out flag) -> subst_rune r = [r].
Proof.
  intros H. unfold subst_rune. destruct (find_arm fold_arms r) as [[o f]|] eqn:E; [|reflexivity].
  apply find_arm_Entry in E. exfalso. eapply H; eauto.
Qed.

Lemma flagged_entry r : flagged r = true <-> exists out, Entry r out true.
Proof.
  unfold flagged. destruct (find_arm fold_arms r) as [[o f]|] eqn:E.
  - apply find_arm_Entry in E. split.
    + intros ->. eauto.
    + intros (out & H). now destruct (Entry_unique _ _ _ _ _ E H).
  - split; [discriminate|]. intros (out & H). apply find_arm_Entry in H. congruence.
Qed.

(** Runes that survive: no entry. *)
Definition unfoldable (r : N) : Prop := forall out flag, ~ Entry r out flag.

Lemma subst_unfoldable r : valid_rune r = true -> Forall (fun x => unfoldable x /\ valid_rune x = true) (subst_rune r).
Proof.
  intros V. unfold subst_rune. destruct (find_arm fold_arms r) as [[o f]|] eqn:E.
  - apply find_arm_Entry in E. destruct (Entry_facts _ _ _ E) as (_ & A & _).
    eapply Forall_impl; [|exact A]. cbn. intros x Hx. split.
    + intros out flag F. apply Entry_facts in F. lia.
    + apply valid_rune_spec. lia.
  - constructor; [|constructor]. split; [|assumption]. intros out flag F. apply find_arm_Entry in F. congruence.
Qed.

Lemma flat_subst_unfoldable rs : Forall (fun r => valid_rune r = true) rs ->
  Forall (fun x => unfoldable x /\ valid_rune x = true) (flat_map subst_rune rs).
Proof.
  induction 1; cbn; [constructor|]. apply Forall_app. split; auto using subst_unfoldable.
Qed.

Lemma map_fix_valid l : Forall (fun r => valid_rune r = true) l -> map fix_rune l = l.
Proof. induction 1; cbn; [reflexivity|]. unfold fix_rune at 1. now rewrite H, IHForall. Qed.

Lemma fold_result_runes s :
  runes (encode (flat_map subst_rune (runes s))) = flat_map subst_rune (runes s).
Proof.
  rewrite runes_encode. apply map_fix_valid.
  eapply Forall_impl; [|apply flat_subst_unfoldable, runes_valid]. cbn. tauto.
Qed.

Lemma FoldString_gone s s' : FoldString s = (s', true) ->
  Forall unfoldable (runes s') /\ FoldString s' = (s', false).
Proof.
  rewrite FoldString_spec. destruct (existsb flagged (runes s)) eqn:E; intros H; inversion H; subst.
  assert (F : Forall unfoldable (runes (encode (flat_map subst_rune (runes s))))).
  { rewrite fold_result_runes. eapply Forall_impl; [|apply flat_subst_unfoldable, runes_valid]. cbn. tauto. }
  split; [exact F|]. rewrite FoldString_spec.
  destruct (existsb flagged (runes (encode (flat_map subst_rune (runes s))))) eqn:G; [|reflexivity].
  apply existsb_exists in G. destruct G as (r & R1 & R2). apply flagged_entry in R2. destruct R2 as (out & R2).
  rewrite Forall_forall in F. exfalso. eapply F; eauto.
Qed.

Lemma FoldString_ascii s : is_ascii_string s = true -> FoldString s = (s, false).
Proof.
  intros A. rewrite FoldString_spec. destruct (existsb flagged (runes s)) eqn:E; [|reflexivity].
  apply existsb_exists in E. destruct E as (r & R1 & R2). apply flagged_entry in R2. destruct R2 as (out & R2).
  apply Entry_facts in R2. apply is_ascii_runes in A. rewrite Forall_forall in A. apply A in R1. lia.
Qed.

Lemma FoldString_nonempty s s' : FoldString s = (s', true) -> s' <> EmptyString.
Proof.
  rewrite FoldString_spec. destruct (existsb flagged (runes s)) eqn:E; intros H; inversion H; subst. clear H.
  intros Z. apply (f_equal runes) in Z. rewrite fold_result_runes in Z. cbn in Z.
  apply existsb_exists in E. destruct E as (r & R1 & R2). apply flagged_entry in R2. destruct R2 as (out & R2).
  assert (In (hd 0 out) (flat_map subst_rune (runes s))).
  { apply in_flat_map. exists r. split; [assumption|]. rewrite (subst_rune_entry _ _ _ R2).
    apply Entry_facts in R2. destruct out; [tauto|now left]. }
  rewrite Z in H. destruct H.
Qed.

(** The unflagged entries. *)
Lemma unflagged_entries r out : Entry r out false -> (r = 8275 \/ r = 65374) /\ out = [126].
Proof.
  intros (cs & A & B).
  assert (T : forallb (fun a : list N * list N * bool => let '(cs, out, flag) := a in
     flag || (forallb (fun r => (r =? 8275) || (r =? 65374)) cs && match out with [x] => x =? 126 | _ => false end)) fold_arms = true)
    by (vm_compute; reflexivity).
  rewrite forallb_forall in T. specialize (T _ A). cbn in T. apply andb_true_iff in T. destruct T as [T1 T2].
  rewrite forallb_forall in T1. specialize (T1 _ B). apply orb_true_iff in T1. rewrite !N.eqb_eq in T1.
  split; [assumption|]. destruct out as [|x [|y out]]; try discriminate. apply N.eqb_eq in T2. now subst.
Qed.

(** ** Comparison with the Lucene table *)

Fixpoint find_lucene (arms : list (list N * list N)) (r : N) : option (list N) :=
  match arms with
  | [] => None
  | (cs, out) :: rest => if mem_N r cs then Some out else find_lucene rest r
  end.

Lemma find_lucene_some arms r out : find_lucene arms r = Some out -> exists cs, In (cs, out) arms /\ In r cs.
Proof.
  induction arms as [|[cs o] arms IH]; cbn; [discriminate|]. destruct (mem_N r cs) eqn:E.
  - intros H. inversion H; subst. exists cs. split; [now left|now apply mem_N_In].
  - intros H. destruct (IH H) as (cs' & A & B). exists cs'. split; [now right|assumption].
Qed.

Definition lucene_cases : list N := flat_map fst lucene_arms.
Lemma lucene_nodup : NoDup lucene_cases.
Proof. apply nodupb_NoDup. vm_compute. reflexivity. Qed.

Lemma LuceneEntry_unique r o1 o2 : LuceneEntry r o1 -> LuceneEntry r o2 -> o1 = o2.
Proof.
  intros (c1 & A1 & B1) (c2 & A2 & B2).
  pose proof (NoDup_flat_map_unique fst lucene_arms r (c1, o1) (c2, o2) lucene_nodup A1 A2 B1 B2) as E.
  inversion E; auto.
Qed.

Fixpoint list_eqb (a b : list N) : bool :=
  match a, b with
  | [], [] => true
  | x :: a', y :: b' => (x =? y) && list_eqb a' b'
  | _, _ => false
  end.
Lemma list_eqb_eq a : forall b, list_eqb a b = true -> a = b.
Proof.
  induction a as [|x a IH]; intros [|y b]; cbn; try discriminate; auto. intros H.
  apply andb_true_iff in H. destruct H as [H1 H2]. apply N.eqb_eq in H1. f_equal; auto.
Qed.

Lemma tables_agree :
  forallb (fun a : list N * list N * bool => let '(cs, out, _) := a in
    forallb (fun r => (r =? 680) || match find_lucene lucene_arms r with Some o => list_eqb o out | None => false end) cs) fold_arms = true
  /\ forallb (fun a : list N * list N => let '(cs, out) := a in
    forallb (fun r => (r =? 680) || match find_arm fold_arms r with Some (o, _) => list_eqb o out | None => false end) cs) lucene_arms = true.
Proof. vm_compute. split; reflexivity. Qed.

Lemma lucene_same r out : r <> 680 -> (exists flag, Entry r out flag) <-> LuceneEntry r out.
Proof.
  intros N680. destruct tables_agree as [T1 T2]. rewrite forallb_forall in T1, T2. split.
  - intros (flag & cs & A & B). specialize (T1 _ A). cbv beta iota zeta in T1. rewrite forallb_forall in T1.
    specialize (T1 _ B). apply orb_true_iff in T1. rewrite N.eqb_eq in T1. destruct T1 as [|T1]; [contradiction|].
    destruct (find_lucene lucene_arms r) as [o|] eqn:F; [|discriminate]. apply list_eqb_eq in T1. subst o.
    now apply find_lucene_some.
  - intros (cs & A & B). specialize (T2 _ A). cbv beta iota zeta in T2. rewrite forallb_forall in T2.
    specialize (T2 _ B). apply orb_true_iff in T2. rewrite N.eqb_eq in T2. destruct T2 as [|T2]; [contradiction|].
    destruct (find_arm fold_arms r) as [[o f]|] eqn:F; [|discriminate]. apply list_eqb_eq in T2. subst o.
    exists f. now apply find_arm_Entry.
Qed.

(** ** The filter *)

Section FoldFilter.
Variable U : unicode.

Definition folds_to (t t' : token) : Prop :=
  match FoldString (tvalue t) with
  | (f, true) => NewToken U f true = Some t'
  | (_, false) => t' = t
  end.

Lemma folder_total t : exists t', maps_to [folder U] t t' /\ folds_to t t'.
Proof.
  unfold maps_to, folds_to, folder. cbn. destruct (FoldString (tvalue t)) as [f [|]] eqn:E.
  - destruct (NewToken_cons U f true (FoldString_nonempty _ _ E)) as (t' & N). exists t'. rewrite N. auto.
  - exists t. auto.
Qed.

Lemma folder_maps l : exists l', Forall2 (maps_to [folder U]) l l' /\ Forall2 folds_to l l'.
Proof.
  destruct (Forall2_exists (fun t t' => maps_to [folder U] t t' /\ folds_to t t') l) as (l' & F).
  - intros t _. apply folder_total.
  - exists l'. split; eapply Forall2_impl'; try exact F; cbn; tauto.
Qed.
End FoldFilter.
