(** * Proofs for C69: what the printing methods tell *)

From Coq Require Import Permutation DecimalString DecimalNat.
From Verif Require Import Base Utf8 Unicode UnicodeData Token Stream StreamSpec Tokenizer Scanner Queue Cli Trie Synonyms Generators Render RenderSpec
  RenderProofs PropRenderLemmas Decl DeclSpec Words CliProofs PropCliLemmas StreamProofs Utf8Proofs WordsProofs TokenProofs.
Local Open Scope N_scope.

Lemma node_ind2 (P : node -> Prop) : (forall cs h c, Forall (fun x => P (snd x)) cs -> P (Node cs h c)) -> forall n, P n.
Proof.
  intros H. fix F 1. intros [cs h c]. apply H. induction cs as [|[r n] cs IH]; constructor; [apply F|exact IH].
Qed.

(** ** Reading a node *)

Inductive valid_node : node -> Prop :=
| VN cs h c : Forall (fun x => valid_rune (fst x) = true /\ valid_node (snd x)) cs -> valid_node (Node cs h c).

Section Reading.
Variable isPrint : N -> bool.
Hypothesis PO : print_ok isPrint.

Notation node_String := (node_String isPrint).

Fixpoint each (cs : list (N * node)) : string :=
  match cs with
  | [] => ""
  | (r, child) :: cs' => ("'" ++ encode_rune r ++ "': " ++ node_String child ++ "," ++ nl ++ each cs')%string
  end.

Definition part1 (h : bool) : string := if h then (tab ++ "HasCanonical: true," ++ nl)%string else "".
Definition part2 (c : string) : string := if seqb c "" then "" else ("Canonical: " ++ Quote isPrint c ++ "," ++ nl)%string.
Definition part3 (cs : list (N * node)) : string :=
  match cs with [] => "" | _ :: _ => ("Children: map[rune]*trie.Node{" ++ nl ++ each cs ++ "}," ++ nl)%string end.

Lemma node_String_parts cs h c : node_String (Node cs h c) = ("&trie.Node{" ++ nl ++ part1 h ++ part2 c ++ part3 cs ++ "}")%string.
Proof. reflexivity. Qed.

Lemma app_same (p x y : string) : (p ++ x)%string = (p ++ y)%string -> x = y.
Proof. induction p as [|a p IH]; [auto|]. cbn. intros E. injection E. exact IH. Qed.

Lemma quote_unique c1 c2 t1 t2 : (Quote isPrint c1 ++ t1)%string = (Quote isPrint c2 ++ t2)%string -> c1 = c2 /\ t1 = t2.
Proof.
  rewrite !Quote_quoted. unfold quoted. cbn [String.append]. intros E. injection E as E. rewrite !sapp_assoc in E. cbn [String.append] in E.
  exact (literal_unique _ _ (literal_qbody isPrint PO c1) _ _ _ _ (literal_qbody isPrint PO c2) E).
Qed.

Lemma part1_unique h1 h2 x1 x2 : (forall y, x1 <> String (chr 9) y) -> (forall y, x2 <> String (chr 9) y) ->
  (part1 h1 ++ x1)%string = (part1 h2 ++ x2)%string -> h1 = h2 /\ x1 = x2.
Proof.
  intros N1 N2 E. destruct h1, h2; unfold part1 in E.
  - apply app_same in E. auto.
  - exfalso. eapply N2. symmetry. exact E.
  - exfalso. eapply N1. exact E.
  - auto.
Qed.

Lemma part2_unique c1 c2 x1 x2 : (forall y, x1 <> String "C" (String "a" y)) -> (forall y, x2 <> String "C" (String "a" y)) ->
  (part2 c1 ++ x1)%string = (part2 c2 ++ x2)%string -> c1 = c2 /\ x1 = x2.
Proof.
  intros N1 N2 E. unfold part2, seqb in E. destruct (String.eqb_spec c1 ""), (String.eqb_spec c2 "").
  - subst. auto.
  - exfalso. eapply N1. exact E.
  - exfalso. eapply N2. symmetry. exact E.
  - rewrite !(sapp_assoc "Canonical: ") in E. apply app_same in E. rewrite !(sapp_assoc (Quote _ _)) in E. apply quote_unique in E as [-> E]. apply app_same in E. auto.
Qed.

Lemma each_unique cs1 : Forall (fun x => valid_node (snd x) -> forall n2, valid_node n2 -> forall t1 t2,
    (node_String (snd x) ++ t1)%string = (node_String n2 ++ t2)%string -> snd x = n2 /\ t1 = t2) cs1 ->
  Forall (fun x => valid_rune (fst x) = true /\ valid_node (snd x)) cs1 ->
  forall cs2, Forall (fun x => valid_rune (fst x) = true /\ valid_node (snd x)) cs2 ->
  forall t1 t2, (each cs1 ++ "}" ++ t1)%string = (each cs2 ++ "}" ++ t2)%string -> cs1 = cs2 /\ t1 = t2.
Proof.
  induction cs1 as [|[r1 n1] cs1 IH]; intros I V1 [|[r2 n2] cs2] V2 t1 t2 E.
  - injection E. auto.
  - discriminate E.
  - discriminate E.
  - inversion I; subst. inversion V1; subst. inversion V2; subst. cbn [fst snd] in *. cbn [each] in E.
    destruct H3 as [R1 N1], H5 as [R2 N2]. rewrite !(sapp_assoc "'") in E. apply app_same in E. rewrite !(sapp_assoc (encode_rune _)) in E.
    apply enc_prefix in E as [-> E]; [|assumption..]. rewrite !(sapp_assoc "': ") in E. apply app_same in E. rewrite !(sapp_assoc (node_String _)) in E.
    apply H1 in E as [-> E]; [|assumption..]. rewrite !(sapp_assoc ",") in E. apply app_same in E. rewrite !(sapp_assoc nl) in E. apply app_same in E.
    apply IH in E as [-> E]; auto.
Qed.

Lemma part3_unique cs1 cs2 x1 x2 : Forall (fun x => valid_node (snd x) -> forall n2, valid_node n2 -> forall t1 t2,
    (node_String (snd x) ++ t1)%string = (node_String n2 ++ t2)%string -> snd x = n2 /\ t1 = t2) cs1 ->
  Forall (fun x => valid_rune (fst x) = true /\ valid_node (snd x)) cs1 ->
  Forall (fun x => valid_rune (fst x) = true /\ valid_node (snd x)) cs2 ->
  (part3 cs1 ++ "}" ++ x1)%string = (part3 cs2 ++ "}" ++ x2)%string -> cs1 = cs2 /\ x1 = x2.
Proof.
  intros I V1 V2 E. unfold part3 in E. destruct cs1 as [|a cs1], cs2 as [|b cs2].
  - injection E. auto.
  - discriminate E.
  - discriminate E.
  - rewrite !(sapp_assoc "Children: map[rune]*trie.Node{") in E. apply app_same in E. rewrite !(sapp_assoc nl) in E. apply app_same in E.
    rewrite !(sapp_assoc (each _)) in E. rewrite !(sapp_assoc "},") in E. change "},"%string with ("}" ++ ",")%string in E. rewrite !(sapp_assoc "}" ",") in E.
    apply each_unique in E as [-> E]; [|assumption..]. apply app_same in E. apply app_same in E. injection E. auto.
Qed.

Lemma part3_head cs x y : (part3 cs ++ "}" ++ x)%string <> String "C" (String "a" y).
Proof. destruct cs; discriminate. Qed.

Lemma part23_head c cs x y : (part2 c ++ part3 cs ++ "}" ++ x)%string <> String (chr 9) y.
Proof. unfold part2. destruct (seqb c ""), cs; discriminate. Qed.

Lemma node_unique n1 : valid_node n1 -> forall n2, valid_node n2 -> forall t1 t2,
  (node_String n1 ++ t1)%string = (node_String n2 ++ t2)%string -> n1 = n2 /\ t1 = t2.
Proof.
  induction n1 as [cs1 h1 c1 IH] using node_ind2. intros V1 [cs2 h2 c2] V2 t1 t2 E. inversion V1; subst. inversion V2; subst.
  rewrite !node_String_parts in E. rewrite !sapp_assoc in E. apply app_same in E. apply app_same in E.
  apply part1_unique in E as [-> E]; [|apply part23_head..]. apply part2_unique in E as [-> E]; [|apply part3_head..].
  apply part3_unique in E as [-> E]; auto.
Qed.

(** ** Reading a trie and a filter *)

Definition ignores (ig : list N) : string := sconcat (map (fun k => "'" ++ encode_rune k ++ "': true," ++ nl)%string ig).

Lemma ignores_unique ig1 : forall ig2 t1 t2, Forall (fun r => valid_rune r = true) ig1 -> Forall (fun r => valid_rune r = true) ig2 ->
  (ignores ig1 ++ "}" ++ t1)%string = (ignores ig2 ++ "}" ++ t2)%string -> ig1 = ig2 /\ t1 = t2.
Proof.
  induction ig1 as [|r1 ig1 IH]; intros [|r2 ig2] t1 t2 V1 V2 E.
  - injection E. auto.
  - discriminate E.
  - discriminate E.
  - inversion V1; subst. inversion V2; subst. unfold ignores in E. cbn [map sconcat] in E. rewrite !(sapp_assoc "'" _) in E. rewrite !sapp_assoc in E. apply app_same in E.
    apply enc_prefix in E as [-> E]; [|assumption..]. apply app_same in E. apply app_same in E. apply IH in E as [-> E]; auto.
Qed.

Lemma trie_unique ig1 ic1 n1 ig2 ic2 n2 t1 t2 : Forall (fun r => valid_rune r = true) ig1 -> Forall (fun r => valid_rune r = true) ig2 ->
  valid_node n1 -> valid_node n2 ->
  (trie_String isPrint ig1 ic1 n1 ++ t1)%string = (trie_String isPrint ig2 ic2 n2 ++ t2)%string -> ig1 = ig2 /\ ic1 = ic2 /\ n1 = n2 /\ t1 = t2.
Proof.
  intros I1 I2 V1 V2 E. unfold trie_String in E. fold (ignores ig1) (ignores ig2) in E. rewrite !sapp_assoc in E. do 4 apply app_same in E.
  change "},"%string with ("}" ++ ",")%string in E. rewrite !(sapp_assoc "}" ",") in E. apply ignores_unique in E as [-> E]; [|assumption..].
  do 2 apply app_same in E. destruct ic1, ic2; try discriminate E; rewrite ?sapp_assoc in E; repeat apply app_same in E.
  - apply node_unique in E as [-> E]; [|assumption..]. do 3 apply app_same in E. auto.
  - apply node_unique in E as [-> E]; [|assumption..]. do 3 apply app_same in E. auto.
Qed.

Lemma itoa_unique n1 n2 t1 t2 : (itoa n1 ++ "," ++ t1)%string = (itoa n2 ++ "," ++ t2)%string -> n1 = n2 /\ t1 = t2.
Proof.
  intros E. assert (F : forall n, ~ In ","%char (la (itoa n))).
  { intros n. unfold itoa. assert (G : forall u, ~ In ","%char (la (NilEmpty.string_of_uint u))) .
    { induction u; cbn; [tauto|..]; (intros [H|H]; [discriminate H|exact (IHu H)]). }
    destruct (Nat.to_uint n) eqn:D; cbn [NilZero.string_of_uint]; [intros [H|[]]; discriminate H|..]; apply G. }
  apply (free_split ","%char) in E as [E ->]; [|apply F..]. split; [|reflexivity].
  destruct (itoa_decimal n1) as (u1 & A1 & B1 & _), (itoa_decimal n2) as (u2 & A2 & B2 & _). rewrite E in A1. congruence.
Qed.

Lemma words_unique m1 m2 : ((if Nat.ltb 0 m1 then "MaxWords: " ++ itoa m1 ++ "," ++ nl else "") ++ "}")%string =
  ((if Nat.ltb 0 m2 then "MaxWords: " ++ itoa m2 ++ "," ++ nl else "") ++ "}")%string -> m1 = m2.
Proof.
  intros E. destruct m1 as [|m1], m2 as [|m2]; [reflexivity|discriminate E|discriminate E|]. cbn [Nat.ltb Nat.leb] in E. rewrite !sapp_assoc in E.
  apply app_same in E. apply itoa_unique in E as [E _]. exact E.
Qed.
End Reading.

(** ** The order of the children makes no difference *)

Inductive distinct_node : node -> Prop :=
| DN cs h c : NoDup (map fst cs) -> Forall (fun x => distinct_node (snd x)) cs -> distinct_node (Node cs h c).

Lemma get_child_In cs : NoDup (map fst cs) -> forall r n, get_child r cs = Some n <-> In (r, n) cs.
Proof.
  induction cs as [|[r' n'] cs IH]; intros D r n; cbn; [split; [discriminate|contradiction]|]. inversion D; subst. destruct (N.eqb_spec r r') as [->|Ne].
  - split; [intros E; injection E as ->; auto|]. intros [E|E]; [injection E as ->; reflexivity|]. exfalso. apply H1. apply (in_map fst) in E. exact E.
  - rewrite IH by assumption. split; [auto|]. intros [E|E]; [injection E as -> ->; contradiction|exact E].
Qed.

Lemma get_child_perm r cs ds : Permutation cs ds -> NoDup (map fst cs) -> get_child r cs = get_child r ds.
Proof.
  intros P D. assert (D' : NoDup (map fst ds)) by (eapply Permutation_NoDup; [apply Permutation_map, P|exact D]).
  destruct (get_child r cs) as [n|] eqn:E.
  - symmetry. apply get_child_In; [exact D'|]. eapply Permutation_in; [exact P|]. apply get_child_In; assumption.
  - destruct (get_child r ds) as [n|] eqn:F; [|reflexivity]. exfalso. apply get_child_In in F; [|exact D'].
    apply (Permutation_in _ (Permutation_sym P)) in F. apply get_child_In in F; [|exact D]. congruence.
Qed.

Definition like (a b : option node) : Prop :=
  match a, b with Some x, Some y => distinct_node x /\ reordered x y | None, None => True | _, _ => False end.

Lemma child_like n m r : distinct_node n -> reordered n m -> like (get_child r (n_children n)) (get_child r (n_children m)).
Proof.
  intros D R. inversion R as [cs cs' ds h c P F]; subst. inversion D as [? ? ? ND Ds]; subst. cbn [n_children]. rewrite (get_child_perm r _ _ P ND).
  assert (Ds' : Forall (fun x => distinct_node (snd x)) cs') by (rewrite Forall_forall in *; intros x I; apply Ds; eapply Permutation_in; [apply Permutation_sym, P|exact I]).
  clear P ND D R Ds. induction F as [|[a x] [b y] cs' ds [E Rxy] F IH]; [exact I|]. cbn [fst snd] in *. subst b. inversion Ds'; subst. cbn [get_child]. destruct (r =? a); [|auto].
  split; assumption.
Qed.

Section Search.
Variable U : unicode.
Variables t t' : trie.
Hypothesis Ig : forall r, nmem r (t_ignore t) = nmem r (t_ignore t').
Hypothesis Ic : t_ignoreCase t = t_ignoreCase t'.

Lemma keep_same r : keep_rune U t r = keep_rune U t' r.
Proof. unfold keep_rune. rewrite Ic, Ig. reflexivity. Qed.

Lemma walk_like rs : forall p n m, distinct_node n -> reordered n m ->
  match walk U t (p, n) rs, walk U t' (p, m) rs with
  | Some (q, x), Some (q', y) => q = q' /\ distinct_node x /\ reordered x y
  | None, None => True
  | _, _ => False
  end.
Proof.
  induction rs as [|r rs IH]; intros p n m D R; cbn [walk]; [auto|]. rewrite <- keep_same. destruct (keep_rune U t r) as [r'|]; [|apply IH; assumption].
  cbn [fst snd]. pose proof (child_like n m r' D R) as L. unfold like in L. destruct (get_child r' (n_children n)), (get_child r' (n_children m)); try contradiction; [|exact I].
  apply IH; apply L.
Qed.

Lemma search_like toks : forall i p n m res acc, distinct_node n -> reordered n m -> search_loop U t i (p, n) res acc toks = search_loop U t' i (p, m) res acc toks.
Proof.
  induction toks as [|tok toks IH]; intros i p n m res acc D R; cbn [search_loop]; [reflexivity|].
  pose proof (walk_like (runes (tvalue tok)) p n m D R) as W. destruct (walk U t (p, n) _) as [[q x]|], (walk U t' (p, m) _) as [[q' y]|]; try contradiction; [|reflexivity].
  destruct W as (<- & Dx & Rx). cbn [fst snd]. assert (n_has x = n_has y /\ n_canonical x = n_canonical y) as [-> ->] by (inversion Rx; auto).
  destruct (n_has y && _)%bool; apply IH; assumption.
Qed.
End Search.

Lemma nmem_In r l : nmem r l = true <-> In r l.
Proof. unfold nmem. rewrite existsb_exists. split; [intros (x & I & E); apply N.eqb_eq in E as ->; exact I|]. intros I. exists r. split; [exact I|apply N.eqb_refl]. Qed.

Lemma nmem_same l l' : (forall r, In r l <-> In r l') -> forall r, nmem r l = nmem r l'.
Proof. intros H r. apply eq_true_iff_eq. rewrite !nmem_In. apply H. Qed.

Lemma reordered_valid n m : reordered n m -> valid_node n -> valid_node m.
Proof.
  revert m. induction n as [cs h c IH] using node_ind2. intros m R V. inversion R as [? cs' ds ? ? P F]; subst. inversion V as [? ? ? Vs]; subst. constructor.
  assert (A : Forall (fun x => (valid_rune (fst x) = true /\ valid_node (snd x)) /\ forall m, reordered (snd x) m -> valid_node (snd x) -> valid_node m) cs').
  { rewrite Forall_forall in *. intros x I. apply (Permutation_in _ (Permutation_sym P)) in I. exact (conj (Vs _ I) (IH _ I)). }
  clear P V Vs R IH. induction F as [|x y cs' ds [E Rxy] F IH]; constructor; inversion A; subst; [|apply IH; assumption]. destruct H1 as [[V1 V2] V3]. rewrite <- E. auto.
Qed.

(** ** What is built *)

Lemma set_child_fst r n cs : In r (map fst cs) -> map fst (set_child r n cs) = map fst cs.
Proof. induction cs as [|[r' n'] cs IH]; cbn; [contradiction|]. destruct (N.eqb_spec r r') as [->|Ne]; [reflexivity|]. intros [E|I]; [congruence|]. cbn. rewrite IH by exact I. reflexivity. Qed.

Lemma set_child_new r n cs : ~ In r (map fst cs) -> set_child r n cs = cs ++ [(r, n)].
Proof. induction cs as [|[r' n'] cs IH]; cbn; [reflexivity|]. intros N. destruct (N.eqb_spec r r') as [->|Ne]; [exfalso; auto|]. rewrite IH by auto. reflexivity. Qed.

Lemma set_child_nodup r n cs : NoDup (map fst cs) -> NoDup (map fst (set_child r n cs)).
Proof.
  intros D. destruct (in_dec N.eq_dec r (map fst cs)) as [I|I]; [rewrite set_child_fst by exact I; exact D|]. rewrite set_child_new by exact I. rewrite map_app. cbn.
  apply (Permutation_NoDup (Permutation_cons_append (map fst cs) r)). constructor; assumption.
Qed.

Lemma set_child_all (P : N * node -> Prop) r n cs : P (r, n) -> Forall P cs -> Forall P (set_child r n cs).
Proof. intros H F. induction F as [|[r' n'] cs Hx F IH]; cbn; [auto|]. destruct (r =? r'); constructor; auto. Qed.

Lemma get_child_all (P : node -> Prop) r n cs : get_child r cs = Some n -> Forall (fun x => P (snd x)) cs -> P n.
Proof. intros E F. induction F as [|[r' n'] cs Hx F IH]; cbn in E; [discriminate|]. destruct (r =? r'); [injection E as <-; exact Hx|auto]. Qed.

Lemma add_path_good path can : Forall (fun r => valid_rune r = true) path -> forall n, valid_node n -> distinct_node n ->
  valid_node (add_path n path can) /\ distinct_node (add_path n path can).
Proof.
  induction 1 as [|r path V F IH]; intros [cs h c] Vn Dn; inversion Vn as [? ? ? Vs]; subst; inversion Dn as [? ? ? ND Ds]; subst; cbn [add_path n_children n_has n_canonical].
  - split; constructor; assumption.
  - set (child := match get_child r cs with Some c0 => c0 | None => empty_node end).
    assert (G : valid_node child /\ distinct_node child).
    { unfold child. destruct (get_child r cs) as [x|] eqn:E; [|split; repeat constructor]. split.
      - apply (get_child_all valid_node _ _ _ E). eapply Forall_impl; [|exact Vs]. intros a Ha. apply Ha.
      - apply (get_child_all distinct_node _ _ _ E Ds). }
    destruct (IH child (proj1 G) (proj2 G)) as [V1 D1]. split; constructor.
    + apply set_child_all; [split; assumption|exact Vs].
    + apply set_child_nodup, ND.
    + apply set_child_all; assumption.
Qed.

Definition good (t : trie) : Prop := valid_node (t_root t) /\ distinct_node (t_root t).

Section Build.
Variable U : unicode.
Variable scan : oracle.
Hypothesis Low : forall r, valid_rune r = true -> valid_rune (uToLower U r) = true.

Lemma token_path_valid t toks : Forall (fun r => valid_rune r = true) (token_path U t toks).
Proof.
  unfold token_path. rewrite Forall_forall. intros r I. apply in_flat_map in I as (k & _ & I).
  assert (V : Forall (fun r => valid_rune r = true) (runes (tvalue k))) by apply runes_valid.
  induction V as [|x l Vx V IH]; cbn [keep_runes] in I; [contradiction|]. unfold keep_rune in I. destruct (nmem _ _); [auto|]. destruct I as [<-|I]; [|auto].
  destruct (t_ignoreCase t); auto.
Qed.

Lemma Add_good t toks can : good t -> good (trie_Add U t toks can) /\ t_ignore (trie_Add U t toks can) = t_ignore t.
Proof. intros [V D]. split; [|reflexivity]. apply add_path_good; [apply token_path_valid|exact V|exact D]. Qed.

Lemma split_loop_good all can todo : forall i start sk acc, good (fst acc) ->
  good (fst (snd (split_loop U all can todo i start sk acc))) /\ t_ignore (fst (snd (split_loop U all can todo i start sk acc))) = t_ignore (fst acc).
Proof.
  induction todo as [|tok todo IH]; intros i start sk acc G; cbn [split_loop]; [auto|]. destruct (sk && _)%bool; [auto|]. destruct (seqb _ _); [|auto].
  destruct (Add_good _ (slice all start i) can G) as [G' E]. destruct (IH (S i) (S i) true (trie_Add U (fst acc) (slice all start i) can, updateMaxWords (slice all start i) (snd acc)) G') as [A B].
  split; [exact A|]. rewrite B. exact E.
Qed.

Lemma build_loop_good fuel ms : forall acc e acc', good (fst acc) -> build_loop U scan fuel ms acc = Ret (e, acc') -> good (fst acc') /\ t_ignore (fst acc') = t_ignore (fst acc).
Proof.
  induction ms as [|[k c] ms IH]; intros acc e acc' G E; cbn [build_loop] in E; [injection E as <- <-; auto|].
  destruct (build_entry U scan fuel k c acc) as [[e1 acc1]| |] eqn:B; cbn [bind] in E; try discriminate.
  assert (G1 : good (fst acc1) /\ t_ignore (fst acc1) = t_ignore (fst acc)).
  { unfold build_entry in B. destruct (ToSlice fuel (TokenizeString U scan k)) as [[[toks [e2|]] s2]| |]; cbn [bind] in B; try discriminate; [injection B as <- <-; auto|].
    pose proof (split_loop_good toks c toks 0%nat 0%nat true acc G) as H. destruct (split_loop U toks c toks 0 0 true acc) as [start acc2]. injection B as <- <-. cbn [snd fst] in *.
    destruct H as [H1 H2]. destruct (Add_good _ (skipn start toks) c H1) as [H3 H4]. split; [exact H3|]. rewrite H4. exact H2. }
  destruct G1 as [G1 I1]. destruct e1; [injection E as <- <-; auto|]. destruct (IH _ _ _ G1 E) as [A B']. split; [exact A|]. rewrite B'. exact I1.
Qed.

Lemma build_good fuel cfg e b : build U scan fuel cfg = Ret (e, b) ->
  match b_trie b with Some t => good t /\ t_ignore t = cf_ignoreRunes cfg | None => True end.
Proof.
  unfold build. destruct (build_loop U scan fuel (cf_mappings cfg) _) as [[e1 acc]| |] eqn:B; cbn [bind]; try discriminate.
  apply build_loop_good in B; [|split; repeat constructor]. intros E. destruct e1; injection E as <- <-; cbn [b_trie]; [exact I|]. exact B.
Qed.
End Build.

(** ** C69 *)

Lemma reordered_refl n : reordered n n.
Proof.
  induction n as [cs h c IH] using node_ind2. apply (Reordered cs cs); [apply Permutation_refl|]. induction IH as [|x l Hx IH IHl]; constructor; auto.
Qed.

Definition same_search (a b : option trie) : Prop :=
  match a, b with
  | Some t, Some t' => forall U tokens, SearchCanonical U t tokens = SearchCanonical U t' tokens
  | None, None => True
  | _, _ => False
  end.

Lemma prints_inv isPrint b s : prints isPrint b s ->
  match b_trie b with
  | None => s = filter_String None (b_maxWords b)
  | Some t => exists ig root, NoDup ig /\ (forall r, In r ig <-> In r (t_ignore t)) /\ reordered (t_root t) root /\
      s = filter_String (Some (trie_String isPrint ig (t_ignoreCase t) root)) (b_maxWords b)
  end.
Proof. intros [n|t n ig root D I R]; cbn [b_trie b_maxWords]; [reflexivity|eauto 8]. Qed.

Lemma prints_same isPrint b1 b2 s : print_ok isPrint ->
  match b_trie b1 with Some t => good t /\ Forall (fun r => valid_rune r = true) (t_ignore t) | None => True end ->
  match b_trie b2 with Some t => good t /\ Forall (fun r => valid_rune r = true) (t_ignore t) | None => True end ->
  prints isPrint b1 s -> prints isPrint b2 s -> b_maxWords b1 = b_maxWords b2 /\ same_search (b_trie b1) (b_trie b2).
Proof.
  intros PO G1 G2 P1 P2. apply prints_inv in P1, P2. destruct b1 as [[t1|] n1], b2 as [[t2|] n2]; cbn [b_trie b_maxWords same_search] in *.
  2: { exfalso. destruct P1 as (ig1 & r1 & _ & _ & _ & ->). unfold filter_String in P2. do 2 apply app_same in P2. destruct n2; discriminate P2. }
  2: { exfalso. destruct P2 as (ig2 & r2 & _ & _ & _ & ->). unfold filter_String in P1. do 2 apply app_same in P1. destruct n1; discriminate P1. }
  2: { subst s. unfold filter_String in P2. do 2 apply app_same in P2. apply words_unique in P2. split; [auto|exact I]. }
  - destruct P1 as (ig1 & r1 & D1 & I1 & R1 & ->), P2 as (ig2 & r2 & D2 & I2 & R2 & E2). unfold filter_String in E2. do 2 apply app_same in E2.
    destruct G1 as [[V1 N1] F1], G2 as [[V2 N2] F2]. rewrite !(sapp_assoc "Trie: ") in E2. apply app_same in E2. rewrite !(sapp_assoc (trie_String _ _ _ _)) in E2.
    assert (VI : forall t ig, (forall r, In r ig <-> In r (t_ignore t)) -> Forall (fun r => valid_rune r = true) (t_ignore t) -> Forall (fun r => valid_rune r = true) ig).
    { intros t ig H F. rewrite Forall_forall in *. intros r Hr. apply F, H, Hr. }
    symmetry in E2. apply trie_unique in E2 as (-> & Ec & -> & E2); [|assumption|eapply VI; eassumption|eapply VI; eassumption|eapply reordered_valid; eassumption|eapply reordered_valid; eassumption].
    apply app_same in E2. apply words_unique in E2. split; [auto|]. intros U tokens. unfold SearchCanonical.
    set (m := mkTrie r1 ig1 (t_ignoreCase t1)).
    transitivity (search_loop U m 0 ([], r1) None (false, ""%string, 0%nat) tokens).
    + apply search_like; [|reflexivity|exact N1|exact R1]. apply nmem_same. intros r. cbn [t_ignore m]. symmetry. apply I1.
    + symmetry. apply search_like; [|cbn [m t_ignoreCase]; auto|exact N2|exact R2]. apply nmem_same. intros r. cbn [t_ignore m]. symmetry. apply I2.
Qed.

Lemma C69_lemma isPrint : print_ok isPrint -> forall U1 scan1 fuel1 cfg1 e1 b1 U2 scan2 fuel2 cfg2 e2 b2 s,
  (forall r, valid_rune r = true -> valid_rune (uToLower U1 r) = true) -> (forall r, valid_rune r = true -> valid_rune (uToLower U2 r) = true) ->
  (forall r, In r (cf_ignoreRunes cfg1) -> valid_rune r = true) -> (forall r, In r (cf_ignoreRunes cfg2) -> valid_rune r = true) ->
  build U1 scan1 fuel1 cfg1 = Ret (e1, b1) -> build U2 scan2 fuel2 cfg2 = Ret (e2, b2) ->
  prints isPrint b1 s -> prints isPrint b2 s -> b_maxWords b1 = b_maxWords b2 /\
  match b_trie b1, b_trie b2 with
  | Some t, Some t' => forall U tokens, SearchCanonical U t tokens = SearchCanonical U t' tokens
  | None, None => True
  | _, _ => False
  end.
Proof.
  intros PO U1 scan1 fuel1 cfg1 e1 b1 U2 scan2 fuel2 cfg2 e2 b2 s L1 L2 V1 V2 B1 B2 P1 P2. apply (build_good _ _ L1) in B1. apply (build_good _ _ L2) in B2.
  apply (prints_same isPrint b1 b2 s PO); [| |exact P1|exact P2].
  - destruct (b_trie b1); [|exact I]. destruct B1 as [G ->]. split; [exact G|]. apply Forall_forall, V1.
  - destruct (b_trie b2); [|exact I]. destruct B2 as [G ->]. split; [exact G|]. apply Forall_forall, V2.
Qed.

Lemma prints_something isPrint b : exists s, prints isPrint b s.
Proof.
  destruct b as [[t|] n]; eexists; [|apply Prints_nil].
  apply (Prints_trie isPrint t n (nodup N.eq_dec (t_ignore t)) (t_root t)); [apply NoDup_nodup|intros r; apply nodup_In|apply reordered_refl].
Qed.

(** ** Lexical structure *)

Definition unquoted (s : string) : Prop := forall c, In c (la s) -> ~ In (byte_of c) [34; 39; 92; 96].

Definition unquotedb (s : string) : bool := forallb (fun c => negb (existsb (N.eqb (byte_of c)) [34; 39; 92; 96])) (la s).
Lemma unquotedb_ok s : unquotedb s = true -> unquoted s.
Proof.
  unfold unquotedb. rewrite forallb_forall. intros H c I. apply H in I. apply negb_true_iff in I. intros J. rewrite <- not_true_iff_false in I. apply I.
  apply existsb_exists. exists (byte_of c). split; [exact J|apply N.eqb_refl].
Qed.

Lemma lexes_app a s : unquoted a -> lexes s -> lexes (a ++ s).
Proof. intros H L. induction a as [|c a IH]; [exact L|]. apply Lx_other; [apply H; left; reflexivity|]. apply IH. intros x Hx. apply H. right. exact Hx. Qed.

Lemma lexes_strip a s : unquoted a -> lexes (a ++ s) -> lexes s.
Proof.
  induction a as [|c a IH]; intros H L; [exact L|]. apply IH; [intros x Hx; apply H; right; exact Hx|].
  assert (N : ~ In (byte_of c) [34; 39; 92; 96]) by (apply H; left; reflexivity). cbn [String.append] in L. inversion L; subst.
  - assumption.
  - exfalso. apply N. left. reflexivity.
  - exfalso. apply N. right. left. reflexivity.
Qed.

Lemma lexes_quote isPrint v s : print_ok isPrint -> lexes s -> lexes (Quote isPrint v ++ s).
Proof. intros PO L. rewrite Quote_quoted. eapply Lx_string; [apply literal_qbody, PO|exact L]. Qed.

Lemma lexes_rune r s : writable r -> lexes s -> lexes ("'" ++ encode_rune r ++ "': " ++ s).
Proof.
  intros [V N] L. change ("': " ++ s)%string with (String (chr 39) (": " ++ s)%string). cbn [String.append]. change "'"%char with (chr 39). apply Lx_rune; [apply RL_char; assumption|].
  apply (lexes_app ": "); [apply unquotedb_ok; reflexivity|exact L].
Qed.

Lemma node_lexes isPrint n : print_ok isPrint -> all_runes writable n -> forall s, lexes s -> lexes (node_String isPrint n ++ s).
Proof.
  intros PO. induction n as [cs h c IH] using node_ind2. intros W s L. inversion W as [? ? ? Ws]; subst. rewrite node_String_parts. rewrite !sapp_assoc.
  apply lexes_app; [apply unquotedb_ok; reflexivity|]. apply lexes_app; [apply unquotedb_ok; reflexivity|]. apply lexes_app; [apply unquotedb_ok; destruct h; reflexivity|].
  assert (L3 : lexes (part3 isPrint cs ++ "}" ++ s)).
  { assert (Le : forall t, lexes t -> lexes (each isPrint cs ++ t)).
    { clear W. intros t Lt. induction cs as [|[r n] cs IHc]; [exact Lt|]. inversion IH; subst. inversion Ws; subst. cbn [each fst snd] in *. rewrite !sapp_assoc. apply lexes_rune; [apply H3|].
      apply H1; [apply H3|]. apply lexes_app; [apply unquotedb_ok; reflexivity|]. apply lexes_app; [apply unquotedb_ok; reflexivity|]. apply IHc; assumption. }
    assert (Lb : lexes ("}" ++ s)) by (apply lexes_app; [apply unquotedb_ok; reflexivity|exact L]).
    unfold part3. destruct cs as [|x cs]; [exact Lb|]. rewrite !sapp_assoc.
    apply lexes_app; [apply unquotedb_ok; reflexivity|]. apply lexes_app; [apply unquotedb_ok; reflexivity|]. apply Le.
    apply lexes_app; [apply unquotedb_ok; reflexivity|]. apply lexes_app; [apply unquotedb_ok; reflexivity|]. exact Lb. }
  unfold part2. destruct (seqb c ""); [exact L3|]. rewrite !sapp_assoc. apply lexes_app; [apply unquotedb_ok; reflexivity|]. apply lexes_quote; [exact PO|].
  apply lexes_app; [apply unquotedb_ok; reflexivity|]. apply lexes_app; [apply unquotedb_ok; reflexivity|]. exact L3.
Qed.

Lemma reordered_runes P n m : reordered n m -> all_runes P n -> all_runes P m.
Proof.
  revert m. induction n as [cs h c IH] using node_ind2. intros m R V. inversion R as [? cs' ds ? ? Pe F]; subst. inversion V as [? ? ? Vs]; subst. constructor.
  assert (A : Forall (fun x => (P (fst x) /\ all_runes P (snd x)) /\ forall m, reordered (snd x) m -> all_runes P (snd x) -> all_runes P m) cs').
  { rewrite Forall_forall in *. intros x I. apply (Permutation_in _ (Permutation_sym Pe)) in I. exact (conj (Vs _ I) (IH _ I)). }
  clear Pe V Vs R IH. induction F as [|x y cs' ds [E Rxy] F IH]; constructor; inversion A; subst; [|apply IH; assumption]. destruct H1 as [[V1 V2] V3]. rewrite <- E. auto.
Qed.

Lemma itoa_unquoted n : unquoted (itoa n).
Proof.
  assert (G : forall u, unquoted (NilEmpty.string_of_uint u)).
  { induction u; intros c H; cbn in H; [contradiction|..]; (destruct H as [<-|H]; [cbn; intuition discriminate|exact (IHu _ H)]). }
  unfold itoa. destruct (Nat.to_uint n); cbn [NilZero.string_of_uint]; [apply unquotedb_ok; reflexivity|..]; apply G.
Qed.

Lemma prints_lexes isPrint b s : print_ok isPrint -> prints isPrint b s ->
  match b_trie b with Some t => (forall r, In r (t_ignore t) -> writable r) /\ all_runes writable (t_root t) | None => True end -> lexes s.
Proof.
  intros PO P W. assert (Lw : forall n, lexes ((if Nat.ltb 0 n then "MaxWords: " ++ itoa n ++ "," ++ nl else "") ++ "}")%string).
  { intros n. destruct (Nat.ltb 0 n); [|apply (lexes_app "}" ""); [apply unquotedb_ok; reflexivity|constructor]]. rewrite !sapp_assoc.
    apply lexes_app; [apply unquotedb_ok; reflexivity|]. apply lexes_app; [apply itoa_unquoted|]. apply lexes_app; [apply unquotedb_ok; reflexivity|].
    apply lexes_app; [apply unquotedb_ok; reflexivity|]. apply (lexes_app "}" ""); [apply unquotedb_ok; reflexivity|constructor]. }
  inversion P as [n E|t n ig root D I R E]; subst; cbn [b_trie] in W; unfold filter_String.
  - apply lexes_app; [apply unquotedb_ok; reflexivity|]. apply lexes_app; [apply unquotedb_ok; reflexivity|]. apply Lw.
  - destruct W as [Wi Wr]. apply lexes_app; [apply unquotedb_ok; reflexivity|]. apply lexes_app; [apply unquotedb_ok; reflexivity|]. rewrite !sapp_assoc.
    apply lexes_app; [apply unquotedb_ok; reflexivity|]. unfold trie_String. rewrite !sapp_assoc. do 4 (apply lexes_app; [apply unquotedb_ok; reflexivity|]).
    assert (Li : forall ig', (forall r, In r ig' -> writable r) -> forall t', lexes t' -> lexes (sconcat (map (fun k => ("'" ++ encode_rune k ++ "': true," ++ nl)%string) ig') ++ t')).
    { clear. induction ig' as [|r ig' IH]; intros W t' L; [exact L|]. cbn [map sconcat]. rewrite !(sapp_assoc "'" _). rewrite !sapp_assoc.
      change ("': true," ++ nl ++ sconcat (map (fun k => ("'" ++ encode_rune k ++ "': true," ++ nl)%string) ig') ++ t')%string
        with ("': " ++ "true," ++ nl ++ sconcat (map (fun k => ("'" ++ encode_rune k ++ "': true," ++ nl)%string) ig') ++ t')%string.
      apply lexes_rune; [apply W; left; reflexivity|]. do 2 (apply lexes_app; [apply unquotedb_ok; reflexivity|]). apply IH; [|exact L]. intros x Hx. apply W. right. exact Hx. }
    apply Li; [intros r Hr; apply Wi, I, Hr|]. do 2 (apply lexes_app; [apply unquotedb_ok; reflexivity|]). apply lexes_app; [apply unquotedb_ok; destruct (t_ignoreCase t); reflexivity|].
    apply lexes_app; [apply unquotedb_ok; reflexivity|]. apply node_lexes; [exact PO|eapply reordered_runes; eassumption|].
    do 5 (apply lexes_app; [apply unquotedb_ok; reflexivity|]). apply Lw.
Qed.

Lemma apostrophe_fails s : ~ lexes ("'''" ++ s).
Proof.
  intros L. inversion L as [|? ? N|? ? ? Q|q s' R L' E]; subst.
  - apply N. cbn. auto.
  - inversion R as [r V N|c C|ds n Ln D|ds n Ln D B|ds r Ln D V|ds r Ln D V]; subst; try discriminate.
    assert (E9 : (encode_rune r ++ String (chr 39) s')%string = String (chr 39) ("'" ++ s)%string) by exact E.
    destruct (rune_prefix r 39 _ _ V ltac:(lia) E9) as [-> _]. apply N. cbn. auto.
Qed.

Lemma C69_refutation : exists U scan fuel cfg b, build U scan fuel cfg = Ret (None, b) /\ forall isPrint s, prints isPrint b s -> ~ lexes s.
Proof.
  exists go_unicode, words_scan, 10%nat, (mkConfig [("'", "apostrophe")]%string false []).
  eexists. split; [vm_compute; reflexivity|]. intros isPrint s P. inversion P as [|t n ig root D I R E]; subst. clear P.
  assert (ig = []) as -> by (destruct ig as [|x ig]; [reflexivity|]; exfalso; apply (proj1 (I x)); left; reflexivity).
  cbn [t_root t_ignoreCase] in *. inversion R as [cs cs' ds h c Pe F]; subst. apply Permutation_length_1_inv in Pe. subst cs'.
  inversion F as [|x y l l' [E1 R1] F2]; subst. inversion F2; subst. destruct y as [r y]. cbn [fst snd] in *. subst r. intros L.
  unfold filter_String, trie_String in L. cbn [map sconcat] in L. rewrite !sapp_assoc in L. cbn [node_String] in L. rewrite !sapp_assoc in L.
  repeat (apply lexes_strip in L; [|apply unquotedb_ok; reflexivity]).
  revert L. apply apostrophe_fails.
Qed.

Lemma queue_unique isPrint q1 q2 : print_ok isPrint -> queue_String isPrint q1 = queue_String isPrint q2 -> map tvalue q1 = map tvalue q2.
Proof.
  intros PO. unfold queue_String. intros E. apply app_same in E.
  revert q2 E. induction q1 as [|t1 q1 IH]; intros [|t2 q2] E; cbn [map] in *.
  - reflexivity.
  - exfalso. destruct q2; discriminate E.
  - exfalso. destruct q1; discriminate E.
  - destruct q1 as [|u1 q1], q2 as [|u2 q2]; cbn [map join] in *; rewrite ?sapp_assoc in E; apply (quote_unique isPrint PO) in E as [-> E].
    + reflexivity.
    + discriminate E.
    + discriminate E.
    + apply app_same in E. f_equal. exact (IH (u2 :: q2) E).
Qed.

Lemma C69_partial_lemma isPrint b : print_ok isPrint ->
  match b_trie b with Some t => (forall r, In r (t_ignore t) -> writable r) /\ all_runes writable (t_root t) | None => True end ->
  (exists s, prints isPrint b s) /\ forall s, prints isPrint b s -> lexes s.
Proof. intros PO W. split; [apply prints_something|]. intros s P. eapply prints_lexes; eassumption. Qed.

(** ** The text *)
Local Open Scope string_scope.

Lemma node_text_ok isPrint n : print_ok isPrint -> forall m, reordered n m -> node_text n (node_String isPrint m).
Proof.
  intros PO. induction n as [cs h c IH] using node_ind2. intros m R. inversion R as [cs0 cs' ds h0 c0 P F]; subst.
  rewrite node_String_parts. pose proof (literal_qbody isPrint PO c) as L.
  assert (K : kids_text cs' (each isPrint ds)).
  { assert (IH' : Forall (fun x => forall m, reordered (snd x) m -> node_text (snd x) (node_String isPrint m)) cs').
    { apply Forall_forall. intros x I. apply (proj1 (Forall_forall _ _) IH). exact (Permutation_in _ (Permutation_sym P) I). }
    clear - F IH'. induction F as [|[r x] [r' y] l l' [E Rx] F IHF]; cbn [each]; [constructor|]. inversion IH' as [|? ? Hx Hl]; subst.
    cbn [fst snd] in *. subst r'. apply (KT_more r x l _ _ (Hx _ Rx) (IHF Hl)). }
  assert (E : "&trie.Node{" ++ nl ++ part1 h ++ part2 isPrint c ++ part3 isPrint ds ++ "}" =
    "&trie.Node{
" ++ (if h then "	HasCanonical: true,
" else "") ++ match c with "" => "" | _ => "Canonical: " ++ quoted (qbody isPrint c) ++ ",
" end ++ match cs with [] => "" | _ => "Children: map[rune]*trie.Node{
" ++ each isPrint ds ++ "},
" end ++ "}").
  { assert (E2 : part2 isPrint c = match c with "" => "" | _ => "Canonical: " ++ quoted (qbody isPrint c) ++ ",
" end) by (destruct c; reflexivity).
    assert (E3 : part3 isPrint ds = match cs with [] => "" | _ => "Children: map[rune]*trie.Node{
" ++ each isPrint ds ++ "},
" end).
    { destruct cs as [|x cs]; [apply Permutation_nil in P; subst; inversion F; reflexivity|].
      destruct cs' as [|x' cs']; [apply Permutation_sym, Permutation_nil in P; discriminate|]. inversion F; subst. reflexivity. }
    rewrite E2, E3. reflexivity. }
  rewrite E. apply (NT cs cs'); assumption.
Qed.

Lemma words_text_ok n : words_text n (if Nat.ltb 0 n then "MaxWords: " ++ itoa n ++ "," ++ nl else "").
Proof. destruct n; [reflexivity|]. exists (itoa (S n)). split; [apply itoa_decimal|reflexivity]. Qed.

Lemma ignore_text_ok ig : sconcat (map (fun k => "'" ++ encode_rune k ++ "': true," ++ nl) ig) = ignore_text ig.
Proof. induction ig as [|r ig IH]; [reflexivity|]. cbn [map sconcat ignore_text]. rewrite IH, !sapp_assoc. reflexivity. Qed.

Lemma C69_text_lemma isPrint b s : print_ok isPrint -> prints isPrint b s -> filter_text b s.
Proof.
  intros PO [n|t n ig root D I R].
  - exact (FT_nil n _ (words_text_ok n)).
  - unfold filter_String, trie_String. rewrite ignore_text_ok.
    pose proof (FT_trie t n ig _ _ D I (node_text_ok isPrint (t_root t) PO root R) (words_text_ok n)) as H.
    match goal with |- filter_text _ ?x => match type of H with filter_text _ ?y => replace x with y; [exact H|] end end.
    rewrite ?sapp_assoc. cbn [append nl]. repeat f_equal.
Qed.

Lemma C69_queue_text_lemma isPrint q : print_ok isPrint -> queue_text (map tvalue q) (queue_String isPrint q).
Proof.
  intros PO. exists (map (fun t => qbody isPrint (tvalue t)) q). split.
  - induction q as [|t q IH]; constructor; [apply literal_qbody; exact PO|exact IH].
  - unfold queue_String. f_equal. f_equal. rewrite map_map. induction q as [|t [|u q] IH]; [reflexivity|reflexivity|].
    cbn [map join String.concat] in *. rewrite IH. reflexivity.
Qed.
