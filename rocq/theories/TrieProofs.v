(** * TrieProofs: the trie is a finite map from spellings to canonicals; search is longest match. *)

From Verif Require Import Base Utf8 Unicode Token Stream StreamSpec Trie FilterSpec SynSpec.
Local Open Scope N_scope.

Section TrieProofs.
Variable U : unicode.

Fixpoint descend (n : node) (p : list N) : option node :=
  match p with
  | [] => Some n
  | r :: p' => match get_child r (n_children n) with None => None | Some c => descend c p' end
  end.

Definition value (n : node) : option string := if n_has n then Some (n_canonical n) else None.

Definition lookup (n : node) (p : list N) : option string :=
  match descend n p with None => None | Some m => value m end.

Lemma get_set_same r n cs : get_child r (set_child r n cs) = Some n.
Proof.
  induction cs as [|[r' n'] cs IH]; cbn [set_child get_child]; [rewrite N.eqb_refl; reflexivity|].
  destruct (r =? r') eqn:E; cbn [get_child]; [rewrite N.eqb_refl; reflexivity|rewrite E; exact IH].
Qed.

Lemma get_set_other r r' n cs : r <> r' -> get_child r' (set_child r n cs) = get_child r' cs.
Proof.
  intros D. assert (F : (r' =? r) = false) by (apply N.eqb_neq; congruence).
  induction cs as [|[r2 n2] cs IH]; cbn [set_child get_child]; [rewrite F; reflexivity|].
  destruct (r =? r2) eqn:E; cbn [get_child].
  - apply N.eqb_eq in E. subst r2. rewrite F. reflexivity.
  - destruct (r' =? r2); [reflexivity|exact IH].
Qed.

Lemma lookup_empty p : lookup empty_node p = None.
Proof. destruct p; reflexivity. Qed.

Lemma lookup_add c p : forall n q,
  lookup (add_path n p c) q = if path_eqb p q then Some c else lookup n q.
Proof.
  induction p as [|r p IH]; intros n q.
  - destruct q as [|r q]; reflexivity.
  - destruct q as [|r' q]; [reflexivity|].
    cbn [add_path]. unfold lookup. cbn [descend n_children path_eqb].
    destruct (N.eqb_spec r r') as [->|D]; cbn [andb].
    + rewrite get_set_same. fold (lookup (add_path match get_child r' (n_children n) with Some c0 => c0 | None => empty_node end p c) q).
      rewrite IH. destruct (path_eqb p q); [reflexivity|].
      destruct (get_child r' (n_children n)); [reflexivity|apply lookup_empty].
    + rewrite get_set_other by exact D. reflexivity.
Qed.

Lemma path_eqb_spec a : forall b, path_eqb a b = true <-> a = b.
Proof.
  induction a as [|x a IH]; intros [|y b]; cbn [path_eqb]; split; intros H; try discriminate; try reflexivity.
  - apply andb_prop in H. destruct H as [H1 H2]. apply N.eqb_eq in H1. apply IH in H2. congruence.
  - injection H as -> ->. rewrite N.eqb_refl. simpl. apply IH. reflexivity.
Qed.

Lemma path_eqb_false a b : path_eqb a b = false <-> a <> b.
Proof.
  split.
  - intros H ->. assert (T : path_eqb b b = true) by (apply path_eqb_spec; reflexivity). congruence.
  - intros H. destruct (path_eqb a b) eqn:E; [|reflexivity]. apply path_eqb_spec in E. contradiction.
Qed.

(** ** Normalization *)

Section Fixed.
Variable ic : bool.
Variable ig : list N.

Definition settings (t : trie) : Prop := t_ignoreCase t = ic /\ t_ignore t = ig.

Notation letters := (letters U ic ig).
Notation spelled := (spelled U ic ig).
Notation means := (means U ic ig).
Notation matches := (matches U ic ig).
Notation longest := (longest U ic ig).
Notation finds := (finds U ic ig).

Lemma keep_runes_letters t v : settings t -> keep_runes U t (runes v) = letters v.
Proof.
  intros [<- <-]. unfold SynSpec.letters. induction (runes v) as [|r rs IH]; [reflexivity|].
  cbn [keep_runes map filter]. unfold keep_rune, nmem.
  destruct (existsb _ _); cbn [negb]; rewrite IH; reflexivity.
Qed.

Lemma token_path_spelled t l : settings t -> token_path U t l = spelled l.
Proof.
  intros S. unfold token_path, SynSpec.spelled. induction l as [|x l IH]; [reflexivity|].
  cbn [flat_map]. rewrite keep_runes_letters by exact S. rewrite IH. reflexivity.
Qed.

Lemma spelled_app a b : spelled (a ++ b) = spelled a ++ spelled b.
Proof. apply flat_map_app. Qed.

(** ** The trie of a dictionary *)

Definition addall (t : trie) (D : dictionary) : trie :=
  fold_left (fun t e => trie_Add U t (fst e) (snd e)) D t.

Definition repr (t : trie) (D : dictionary) : Prop :=
  settings t /\ forall p c, lookup (t_root t) p = Some c <-> means D p c.

Lemma repr_New : repr (trie_New ic ig) [].
Proof.
  split; [split; reflexivity|]. intros p c. cbn [trie_New t_root]. rewrite lookup_empty. split; [discriminate|].
  intros (a & l & b & E & _). destruct a; discriminate E.
Qed.

Lemma means_snoc D l c p c' :
  means (D ++ [(l, c)]) p c' <-> (spelled l = p /\ c' = c) \/ (spelled l <> p /\ means D p c').
Proof.
  split.
  - intros (a & l0 & b & E & S & O). destruct (exists_last (l := (l0, c') :: b) ltac:(discriminate)) as (b0 & x & Eb).
    rewrite Eb in E. rewrite app_assoc in E. apply app_inj_tail in E. destruct E as [E <-].
    destruct b0 as [|y b0].
    + injection Eb as <- -> ->. left. auto.
    + injection Eb as <- ->. right. split; [apply (O _ c); apply in_or_app; right; left; reflexivity|].
      exists a, l0, b0. split; [exact E|]. split; [exact S|]. intros l' c2 H. apply (O l' c2). apply in_or_app; left; exact H.
  - intros [[S ->]|[S (a & l0 & b & -> & S0 & O)]].
    + exists D, l, []. split; [reflexivity|]. split; [exact S|]. intros ? ? [].
    + exists a, l0, (b ++ [(l, c)]). rewrite <- app_assoc. split; [reflexivity|]. split; [exact S0|].
      intros l' c2 H. apply in_app_or in H. destruct H as [H|[H|[]]]; [eapply O, H|]. injection H as <- <-. exact S.
Qed.

Lemma repr_Add t D l c : repr t D -> repr (trie_Add U t l c) (D ++ [(l, c)]).
Proof.
  intros [S R]. split; [exact S|]. intros p c'. rewrite means_snoc.
  unfold trie_Add. cbn [t_root]. rewrite (token_path_spelled t l S). rewrite lookup_add.
  destruct (path_eqb (spelled l) p) eqn:E.
  - apply path_eqb_spec in E. split; [intros H; injection H as ->; auto|intros [[_ ->]|[N _]]; [reflexivity|contradiction]].
  - apply path_eqb_false in E. rewrite R. tauto.
Qed.

Lemma repr_addall D : forall t D0, repr t D0 -> repr (addall t D) (D0 ++ D).
Proof.
  induction D as [|[l c] D IH]; intros t D0 R; [rewrite app_nil_r; exact R|].
  cbn [addall fold_left fst snd]. change (repr (addall (trie_Add U t l c) D) (D0 ++ (l, c) :: D)).
  replace (D0 ++ (l, c) :: D) with ((D0 ++ [(l, c)]) ++ D) by (rewrite <- app_assoc; reflexivity).
  apply IH, repr_Add, R.
Qed.

Lemma repr_inj_means t D p c1 c2 : repr t D -> means D p c1 -> means D p c2 -> c1 = c2.
Proof. intros [_ R] H1 H2. apply R in H1. apply R in H2. congruence. Qed.

Lemma means_inj D p c1 c2 : means D p c1 -> means D p c2 -> c1 = c2.
Proof.
  apply (repr_inj_means (addall (trie_New ic ig) D)).
  apply (repr_addall D (trie_New ic ig) []). apply repr_New.
Qed.

Lemma means_dec D p : (exists c, means D p c) \/ (forall c, ~ means D p c).
Proof.
  assert (R : repr (addall (trie_New ic ig) D) D) by (apply (repr_addall D (trie_New ic ig) []), repr_New).
  destruct (lookup (t_root (addall (trie_New ic ig) D)) p) as [c|] eqn:E.
  - left. exists c. apply R, E.
  - right. intros c H. apply R in H. congruence.
Qed.

(** ** Walking *)

Lemma descend_app n p q : descend n (p ++ q) = match descend n p with None => None | Some m => descend m q end.
Proof.
  revert n. induction p as [|r p IH]; intros n; [reflexivity|]. cbn [app descend].
  destruct (get_child r (n_children n)); [apply IH|reflexivity].
Qed.

Lemma walk_descend t rs : forall p n,
  walk U t (p, n) rs = match descend n (keep_runes U t rs) with
                       | None => None
                       | Some m => Some (p ++ keep_runes U t rs, m)
                       end.
Proof.
  induction rs as [|r rs IH]; intros p n; cbn [walk keep_runes descend].
  - rewrite app_nil_r. reflexivity.
  - destruct (keep_rune U t r) as [r'|]; [|apply IH]. cbn [descend snd fst].
    destruct (get_child r' (n_children n)) as [c|]; [|reflexivity].
    rewrite IH. destruct (descend c (keep_runes U t rs)); [|reflexivity]. rewrite <- app_assoc. reflexivity.
Qed.

(** The state of the search after the tokens [pre] of [pre ++ todo]. *)
Definition best (D : dictionary) (pre : list token) (res : option (list N)) (acc : found_t) : Prop :=
  match res, acc with
  | None, (false, c, k) => c = EmptyString /\ k = 0%nat /\ forall k' c', ~ matches D pre k' c'
  | Some p, (true, c, k) => longest D pre k c /\ p = spelled (firstn k pre)
  | _, _ => False
  end.

Lemma firstn_pre {A} (pre : list A) x k : (k <= length pre)%nat -> firstn k (pre ++ [x]) = firstn k pre.
Proof. intros H. rewrite firstn_app. replace (k - length pre)%nat with 0%nat by lia. rewrite app_nil_r. reflexivity. Qed.

Lemma matches_snoc D pre x k c :
  matches D (pre ++ [x]) k c <->
  matches D pre k c \/ (k = S (length pre) /\ means D (spelled (pre ++ [x])) c).
Proof.
  unfold SynSpec.matches. rewrite app_length. cbn [length]. split.
  - intros [K M]. destruct (le_lt_dec k (length pre)) as [L|L].
    + left. rewrite firstn_pre in M by exact L. split; [lia|exact M].
    + right. assert (k = S (length pre)) as -> by lia. split; [reflexivity|].
      rewrite firstn_all2 in M; [exact M|rewrite app_length; simpl; lia].
  - intros [[K M]|[-> M]].
    + rewrite firstn_pre by lia. split; [lia|exact M].
    + split; [lia|]. rewrite firstn_all2; [exact M|rewrite app_length; simpl; lia].
Qed.

Lemma spelled_firstn_le k pre : (length (spelled (firstn k pre)) <= length (spelled pre))%nat.
Proof.
  rewrite <- (firstn_skipn k pre) at 2. rewrite spelled_app, app_length. lia.
Qed.

Lemma spelled_firstn_eq k pre : length (spelled (firstn k pre)) = length (spelled pre) -> spelled (firstn k pre) = spelled pre.
Proof.
  intros H. rewrite <- (firstn_skipn k pre) at 2. rewrite <- (firstn_skipn k pre) in H at 2.
  rewrite spelled_app in *. rewrite app_length in H. destruct (spelled (skipn k pre)); [now rewrite app_nil_r|simpl in H; lia].
Qed.

Lemma longest_snoc_same D pre x k c :
  longest D pre k c ->
  (forall c', means D (spelled (pre ++ [x])) c' -> spelled (pre ++ [x]) = spelled (firstn k pre)) ->
  longest D (pre ++ [x]) k c.
Proof.
  intros [M L] H. pose proof M as [K _]. split; [apply matches_snoc; left; exact M|].
  intros k' c' M' N. rewrite (firstn_pre pre x k) by lia.
  apply matches_snoc in M'. destruct M' as [M'|[-> M']].
  - rewrite firstn_pre by (destruct M'; lia). apply (L k' c' M' N).
  - right. rewrite (firstn_all2 (pre ++ [x])) by (rewrite app_length; simpl; lia). split; [apply (H _ M')|lia].
Qed.

Lemma longest_snoc_new D pre x c :
  means D (spelled (pre ++ [x])) c ->
  (forall k' c', matches D pre k' c' -> spelled (firstn k' pre) <> spelled (pre ++ [x])) ->
  longest D (pre ++ [x]) (S (length pre)) c.
Proof.
  intros M H. split; [apply matches_snoc; right; auto|].
  intros k' c' M' N. apply matches_snoc in M'. destruct M' as [M'|[-> M']]; [|congruence].
  left. rewrite firstn_pre by (destruct M'; lia).
  rewrite (firstn_all2 (pre ++ [x])) by (rewrite app_length; simpl; lia).
  pose proof (H _ _ M') as NE.
  pose proof (spelled_firstn_le k' (pre ++ [x])) as LE. rewrite firstn_pre in LE by (destruct M'; lia).
  destruct (Nat.eq_dec (length (spelled (firstn k' pre))) (length (spelled (pre ++ [x])))) as [E|]; [|lia].
  exfalso. apply NE. rewrite <- (firstn_pre pre x k') by (destruct M'; lia).
  apply spelled_firstn_eq. rewrite firstn_pre by (destruct M'; lia). exact E.
Qed.

Lemma finds_of_best D pre res acc : best D pre res acc -> finds D pre acc.
Proof. destruct res, acc as [[[|] c] k]; cbn; tauto. Qed.

(** Nothing beyond a missing child can match. *)
Lemma best_ext D pre rest res acc :
  best D pre res acc ->
  (forall k c, (length pre < k)%nat -> ~ matches D (pre ++ rest) k c) -> best D (pre ++ rest) res acc.
Proof.
  intros B H.
  assert (E : forall k c, matches D (pre ++ rest) k c <-> matches D pre k c).
  { intros k c. split.
    - intros M. destruct (le_lt_dec k (length pre)) as [L|L]; [|exfalso; eapply H; eauto].
      destruct M as [K M]. rewrite firstn_app in M. replace (k - length pre)%nat with 0%nat in M by lia.
      rewrite app_nil_r in M. split; [lia|exact M].
    - intros [K M]. split; [rewrite app_length; lia|]. rewrite firstn_app. replace (k - length pre)%nat with 0%nat by lia.
      rewrite app_nil_r. exact M. }
  assert (F : forall k c, matches D pre k c -> firstn k (pre ++ rest) = firstn k pre).
  { intros k c [K _]. rewrite firstn_app. replace (k - length pre)%nat with 0%nat by lia. apply app_nil_r. }
  destruct res as [p|], acc as [[[|] c] k]; cbn [best] in B |- *; try tauto.
  - destruct B as [[M L] ->]. split; [|rewrite (F _ _ M); reflexivity]. split; [apply E, M|].
    intros k' c' M' N. apply E in M'. rewrite (F _ _ M), (F _ _ M'). eapply L; eauto.
  - destruct B as (-> & -> & B). split; [reflexivity|]; split; [reflexivity|]; intros k' c' M. apply E in M. exact (B _ _ M).
Qed.

Lemma search_loop_spec t D todo : repr t D -> forall pre n res acc,
  descend (t_root t) (spelled pre) = Some n ->
  best D pre res acc ->
  finds D (pre ++ todo) (search_loop U t (length pre) (spelled pre, n) res acc todo).
Proof.
  intros [S R]. induction todo as [|x todo IH]; intros pre n res acc Dn B.
  - rewrite app_nil_r. cbn [search_loop]. eapply finds_of_best, B.
  - cbn [search_loop]. rewrite walk_descend, (keep_runes_letters _ _ S).
    assert (E1 : spelled (pre ++ [x]) = spelled pre ++ letters (tvalue x)).
    { rewrite spelled_app. unfold SynSpec.spelled at 2. cbn [flat_map]. rewrite app_nil_r. reflexivity. }
    destruct (descend n (letters (tvalue x))) as [m|] eqn:Dm.
    + assert (Dm' : descend (t_root t) (spelled (pre ++ [x])) = Some m)
        by (rewrite E1, descend_app, Dn; exact Dm).
      assert (Lk : forall c, means D (spelled (pre ++ [x])) c <-> value m = Some c).
      { intros c. rewrite <- R. unfold lookup. rewrite Dm'. tauto. }
      cbn [fst snd]. rewrite <- E1. replace (pre ++ x :: todo) with ((pre ++ [x]) ++ todo) by (rewrite <- app_assoc; reflexivity).
      replace (Datatypes.S (length pre)) with (length (pre ++ [x])) by (rewrite app_length; simpl; lia).
      unfold value in Lk.
      destruct (n_has m) eqn:Hm; cbn [andb].
      * assert (Mn : means D (spelled (pre ++ [x])) (n_canonical m)) by (apply Lk; reflexivity).
        destruct res as [p|].
        -- destruct acc as [[[|] c] k]; cbn [best] in B; [|tauto]. destruct B as [L ->].
           pose proof L as [[K _] _].
           destruct (path_eqb (spelled (pre ++ [x])) (spelled (firstn k pre))) eqn:Pe; cbn [negb].
           ++ apply path_eqb_spec in Pe. apply IH; [exact Dm'|]. cbn [best]. split; [|rewrite firstn_pre by lia; reflexivity].
              apply longest_snoc_same; [exact L|]. intros; exact Pe.
           ++ apply path_eqb_false in Pe. apply IH; [exact Dm'|]. cbn [best].
              rewrite app_length, Nat.add_1_r. cbn [length].
              split; [|rewrite (firstn_all2 (pre ++ [x])) by (rewrite app_length; simpl; lia); reflexivity].
              apply longest_snoc_new; [exact Mn|].
              intros k' c' M' Eq.
              (* the longest earlier match is at least as long as the whole *)
              apply Pe. destruct L as [M L].
              destruct (Nat.eq_dec k' k) as [->|Nk]; [congruence|].
              destruct (L k' c' M' Nk) as [Lt|[Eq2 _]].
              ** pose proof (spelled_firstn_le k (pre ++ [x])) as LE. rewrite firstn_pre in LE by lia. rewrite Eq in Lt. lia.
              ** congruence.
        -- destruct acc as [[[|] c] k]; cbn [best] in B; [tauto|]. apply IH; [exact Dm'|]. cbn [best].
           rewrite app_length, Nat.add_1_r.
           split; [|rewrite (firstn_all2 (pre ++ [x])) by (rewrite app_length; simpl; lia); reflexivity].
           apply longest_snoc_new; [exact Mn|]. intros k' c' M'. exfalso. eapply B, M'.
      * assert (Nn : forall c, ~ means D (spelled (pre ++ [x])) c) by (intros c Hc; apply Lk in Hc; discriminate).
        apply IH; [exact Dm'|]. destruct res as [p|], acc as [[[|] c] k]; cbn [best] in B |- *; try tauto.
        -- destruct B as [L ->]. pose proof L as [[K _] _]. split; [|rewrite firstn_pre by lia; reflexivity].
           apply longest_snoc_same; [exact L|]. intros c' Hc. destruct (Nn _ Hc).
        -- destruct B as (-> & -> & B). split; [reflexivity|]; split; [reflexivity|]; intros k' c' M. apply matches_snoc in M.
           destruct M as [M|[_ M]]; [eapply B, M|eapply Nn, M].
    + eapply finds_of_best. apply best_ext; [exact B|].
      intros k c Hk [K M]. apply R in M. unfold lookup in M.
      rewrite firstn_app in M. rewrite (firstn_all2 pre) in M by lia.
      destruct (k - length pre)%nat as [|j] eqn:Ej; [lia|]. cbn [firstn] in M.
      rewrite spelled_app, descend_app, Dn in M. unfold SynSpec.spelled at 1 in M. cbn [flat_map] in M.
      rewrite descend_app, Dm in M. discriminate M.
Qed.

Lemma SearchCanonical_spec t D l : repr t D -> finds D l (SearchCanonical U t l).
Proof.
  intros R. apply (search_loop_spec t D l R [] (t_root t) None); [reflexivity|].
  cbn. split; [reflexivity|]; split; [reflexivity|]; intros k' c' [K _]. cbn in K. lia.
Qed.

(** The answer is determined. *)
Lemma longest_inj D l k1 c1 k2 c2 : longest D l k1 c1 -> longest D l k2 c2 -> k1 = k2 /\ c1 = c2.
Proof.
  intros [M1 L1] [M2 L2]. destruct (Nat.eq_dec k1 k2) as [->|N].
  - split; [reflexivity|]. destruct M1 as [_ M1], M2 as [_ M2]. eapply means_inj; eauto.
  - destruct (L1 _ _ M2 ltac:(congruence)) as [A|[A A']], (L2 _ _ M1 ltac:(congruence)) as [B|[B B']]; try lia.
    + rewrite B in A. lia.
    + rewrite A in B. lia.
Qed.

Lemma finds_inj D l r1 r2 : finds D l r1 -> finds D l r2 -> r1 = r2.
Proof.
  destruct r1 as [[[|] c1] k1], r2 as [[[|] c2] k2]; cbn; intros H1 H2.
  - destruct (longest_inj _ _ _ _ _ _ H1 H2). congruence.
  - destruct H1 as [M _], H2 as (_ & _ & H2). destruct (H2 _ _ M).
  - destruct H2 as [M _], H1 as (_ & _ & H1). destruct (H1 _ _ M).
  - destruct H1 as (-> & -> & _), H2 as (-> & -> & _). reflexivity.
Qed.

(** The search only depends on what the spellings mean. *)
Lemma finds_ext D1 D2 l r : (forall p c, means D1 p c <-> means D2 p c) -> finds D1 l r -> finds D2 l r.
Proof.
  intros E. assert (M : forall k c, matches D1 l k c <-> matches D2 l k c).
  { intros k c. unfold SynSpec.matches. rewrite E. tauto. }
  destruct r as [[[|] c] k]; cbn.
  - intros [A L]. split; [apply M, A|]. intros k' c' H. apply L with c'. apply M, H.
  - intros (-> & -> & H). split; [reflexivity|]; split; [reflexivity|]; intros k' c' A. apply (H k' c'), M, A.
Qed.

Lemma finds_ex D l : exists r, finds D l r.
Proof.
  exists (SearchCanonical U (addall (trie_New ic ig) D) l). apply SearchCanonical_spec.
  apply (repr_addall D (trie_New ic ig) []), repr_New.
Qed.

End Fixed.
End TrieProofs.
