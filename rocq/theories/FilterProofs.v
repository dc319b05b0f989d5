(** * FilterProofs: laws of the tokenizer and of the simple filters. *)

From Verif Require Import Base Utf8 Unicode Token Stream StreamSpec ListSpec Queue Tokenizer Html Filters
  StreamProofs Utf8Proofs TokenProofs.

(* ------------------------------------------------------------------ *)
(** ** Simulation between closures *)

Definition omap {A B} (f : A -> B) (o : outcome A) : outcome B :=
  match o with Ret a => Ret (f a) | Panic => Panic | NoFuel => NoFuel end.

Section Sim.
Context {X Y : Type} (step1 : nat -> X -> outcome (result * X)) (step2 : nat -> Y -> outcome (result * Y)).
Variable f : X -> Y.
Hypothesis sim : forall n x, step2 n (f x) = omap (fun p => (fst p, f (snd p))) (step1 n x).

Lemma sim_Steps x r x' : Steps step1 x r x' -> Steps step2 (f x) r (f x').
Proof. intros [n Hn]. exists n. intros m Hm. rewrite sim, Hn by lia. reflexivity. Qed.

Lemma sim_EmitsX x l e x' : EmitsX step1 x l e x' -> EmitsX step2 (f x) l e (f x').
Proof. induction 1; [eapply EX_eof|eapply EX_err|eapply EX_cons]; eauto using sim_Steps. Qed.

Lemma sim_PullsX x l x' : PullsX step1 x l x' -> PullsX step2 (f x) l (f x').
Proof. induction 1; [constructor|econstructor]; eauto using sim_Steps. Qed.
End Sim.

(* ------------------------------------------------------------------ *)
(** ** Stop words *)

Section StopProofs.
Variables (U : unicode) (words : list string) (ic : bool).

Definition stop_key (v : string) : string := if ic then strings_ToLower U v else v.
Definition stop_pred (t : token) : bool := negb (smem (stop_key (tvalue t)) (map stop_key words)).

Lemma stop_includes_eq : stop_includes U words ic = map stop_key words.
Proof. reflexivity. Qed.

Lemma stop_where fuel k : forall up,
  stop_loop U (stop_includes U words ic) ic fuel k up
  = omap (fun p => (fst p, snd (snd p))) (where_loop (stateless stop_pred) fuel k (tt, up)).
Proof.
  induction k as [|k IH]; intros up; [reflexivity|]. cbn [stop_loop where_loop].
  destruct (Next fuel up) as [[r up']| |]; [|reflexivity|reflexivity]. cbn [bind].
  destruct r as [[t|] [e|]]; try reflexivity.
  unfold stateless at 1. unfold stop_pred at 1.
  change (if ic then strings_ToLower U (tvalue t) else tvalue t) with (stop_key (tvalue t)).
  rewrite stop_includes_eq. destruct (smem (stop_key (tvalue t)) (map stop_key words)); [|reflexivity].
  cbn [negb]. rewrite <- stop_includes_eq. apply IH.
Qed.

Lemma stop_emits s l e s' : Emits s l e s' ->
  EmitsX (fun fuel up => stop_loop U (stop_includes U words ic) ic fuel fuel up)
    s (filter stop_pred l) e s'.
Proof.
  intros E. pose proof (WEmits_EmitsX _ _ _ _ _ (where_wemits (stateless stop_pred) _ _ _ _ E tt)) as H.
  rewrite keep_stateless in H.
  apply (sim_EmitsX _ (fun fuel up => stop_loop U (stop_includes U words ic) ic fuel fuel up) snd) in H.
  - exact H.
  - intros n [[] up]. cbn [snd]. unfold where_next. rewrite stop_where. reflexivity.
Qed.

Lemma stop_quiet s : Quiet s -> exists s',
  Steps (fun fuel up => stop_loop U (stop_includes U words ic) ic fuel fuel up) s (None, None) s' /\ Quiet s'.
Proof.
  intros [s' [n Hn] Q]. exists s'. split; [|exact Q]. exists (S n). intros m Hm.
  destruct m as [|m]; [lia|]. cbn [stop_loop]. rewrite Hn by lia. reflexivity.
Qed.

Lemma Stopwords_yields s l : Yields s l -> Yields (Stopwords U words ic s) (filter stop_pred l).
Proof.
  intros (s' & E & Q). eapply (Yields_closure _ Quiet); [apply stop_emits, E|apply stop_quiet|exact Q].
Qed.

Lemma Stopwords_fails s l e : Fails s l e -> Fails (Stopwords U words ic s) (filter stop_pred l) e.
Proof. intros (s' & E). eapply Fails_closure, stop_emits, E. Qed.

Lemma Stopwords_lazy s l t s1 : Pulls s (l ++ [t]) s1 -> stop_pred t = true ->
  exists w, Pulls (Stopwords U words ic s) (filter stop_pred (l ++ [t])) w /\
            ts_next w = ts_next (Stopwords U words ic s1).
Proof.
  intros H Hp.
  pose proof (where_pulls (stateless stop_pred) l _ _ _ tt H ltac:(simpl; exact Hp)) as P.
  rewrite keep_stateless in P.
  apply (sim_PullsX _ (fun fuel up => stop_loop U (stop_includes U words ic) ic fuel fuel up) snd) in P.
  - destruct (PullsX_Pulls _ _ _ _ P None None) as (a & b & A). eexists. split; [exact A|reflexivity].
  - intros n [[] up]. cbn [snd]. unfold where_next. rewrite stop_where. reflexivity.
Qed.
End StopProofs.

(* ------------------------------------------------------------------ *)
(** ** Mapper *)

Section MapperProofs.
Variable fs : list mapfunc.

(** The functions map [t] to [t'] without a nil on the way. *)
Definition maps_to (t t' : token) : Prop := apply_funcs fs (Some t) = Ret (Some t').

Lemma mapper_eof s s' : Nexts s (None, None) s' -> Steps (mapper_next fs) s (None, None) s'.
Proof. intros [n Hn]. exists n. intros m Hm. unfold mapper_next. rewrite Hn by lia. reflexivity. Qed.

Lemma mapper_err s o e s' : Nexts s (o, Some e) s' -> Steps (mapper_next fs) s (None, Some e) s'.
Proof.
  intros [n Hn]. exists n. intros m Hm. unfold mapper_next. rewrite Hn by lia. destruct o; reflexivity.
Qed.

Lemma mapper_tok s t r s' : Nexts s (Some t, None) s' -> apply_funcs fs (Some t) = Ret r ->
  Steps (mapper_next fs) s (r, None) s'.
Proof.
  intros [n Hn] E. exists n. intros m Hm. unfold mapper_next. rewrite Hn by lia. cbn [bind].
  rewrite E. reflexivity.
Qed.

Lemma mapper_emits s l e s' : Emits s l e s' -> forall l', Forall2 maps_to l l' ->
  EmitsX (mapper_next fs) s l' e s'.
Proof.
  induction 1 as [s s' N|s o e s' N|s t s1 l e s2 N E IH]; intros l' F; inversion F; subst.
  - apply EX_eof, mapper_eof, N.
  - eapply EX_err, mapper_err, N.
  - eapply EX_cons; [eapply mapper_tok; eauto|]. apply IH. assumption.
Qed.

Lemma mapper_quiet s : Quiet s -> exists s', Steps (mapper_next fs) s (None, None) s' /\ Quiet s'.
Proof. intros [s' N Q]. exists s'. split; auto using mapper_eof. Qed.

Lemma Mapper_yields s l l' : Yields s l -> Forall2 maps_to l l' -> Yields (Mapper fs s) l'.
Proof.
  intros (s' & E & Q) F.
  eapply (Yields_closure _ Quiet); [eapply mapper_emits; eauto|apply mapper_quiet|exact Q].
Qed.

Lemma Mapper_fails s l e l' : Fails s l e -> Forall2 maps_to l l' -> Fails (Mapper fs s) l' e.
Proof. intros (s' & E) F. eapply Fails_closure, mapper_emits; eauto. Qed.

Lemma mapper_pulls s l s' : Pulls s l s' -> forall l', Forall2 maps_to l l' ->
  PullsX (mapper_next fs) s l' s'.
Proof.
  induction 1; intros l' F; inversion F; subst; [constructor|].
  econstructor; [eapply mapper_tok; eauto|auto].
Qed.

Lemma Mapper_lazy s l s' l' : Pulls s l s' -> Forall2 maps_to l l' ->
  exists w, Pulls (Mapper fs s) l' w /\ ts_next w = ts_next (Mapper fs s').
Proof.
  intros H F. destruct (PullsX_Pulls _ _ _ _ (mapper_pulls _ _ _ H _ F) None None) as (a & b & A).
  eexists. split; [exact A|reflexivity].
Qed.
End MapperProofs.

(** Functions that never return nil. *)
Lemma apply_total (gs : list (token -> token)) : forall t,
  apply_funcs (map (fun g t => Some (g t)) gs) (Some t) = Ret (Some (fold_left (fun t g => g t) gs t)).
Proof. induction gs as [|g gs IH]; intros t; cbn; [reflexivity|]. apply IH. Qed.

Lemma Forall2_map_r {A B} (R : A -> B -> Prop) (f : A -> B) l :
  (forall x, R x (f x)) -> Forall2 R l (map f l).
Proof. intros H. induction l; constructor; auto. Qed.

Lemma maps_to_single f t t' : f t = Some t' -> maps_to [f] t t'.
Proof. intros H. unfold maps_to. cbn. now rewrite H. Qed.

Lemma Forall2_exists {A B} (R : A -> B -> Prop) l :
  (forall x, In x l -> exists y, R x y) -> exists l', Forall2 R l l'.
Proof.
  induction l as [|x l IH]; intros H; [exists []; constructor|].
  destruct (H x (or_introl eq_refl)) as (y & Hy). destruct IH as (l' & Hl'); [intros; apply H; now right|].
  exists (y :: l'). constructor; auto.
Qed.

Lemma Forall2_impl' {A B} (R S : A -> B -> Prop) l l' :
  (forall x y, R x y -> S x y) -> Forall2 R l l' -> Forall2 S l l'.
Proof. intros H F. induction F; constructor; auto. Qed.

(* ------------------------------------------------------------------ *)
(** ** Tokenizer *)

Section TokenizerProofs.
Variable U : unicode.
Variable scan : oracle.

(** The tokens for a list of non-empty pieces. *)
Definition piece_token (x : string) : token :=
  match NewToken U x false with Some t => t | None => mkToken x false false false end.

Lemma piece_token_ok x : x <> EmptyString -> NewToken U x false = Some (piece_token x).
Proof.
  intros H. unfold piece_token. destruct (NewToken_cons U x false H) as (t & ->). reflexivity.
Qed.

Lemma piece_token_value x : tvalue (piece_token x) = x.
Proof.
  unfold piece_token. destruct (NewToken U x false) as [t|] eqn:E; [|reflexivity].
  apply (NewToken_value _ _ _ _ E).
Qed.

Lemma piece_tokens_value l : map tvalue (map piece_token l) = l.
Proof. rewrite map_map. induction l; simpl; rewrite ?piece_token_value, ?IHl; auto. Qed.

Lemma text_pieces l : text (map piece_token l) = sconcat l.
Proof. unfold text. now rewrite piece_tokens_value. Qed.

Lemma tokenizer_emits l e : (forall x, In x l -> x <> EmptyString) ->
  EmitsX (tokenizer_next U) (mkScanner l e) (map piece_token l) e (mkScanner [] e).
Proof.
  induction l as [|x l IH]; intros H; cbn [map].
  - destruct e; [eapply EX_err|apply EX_eof]; apply Returns_ret.
  - eapply EX_cons; [|apply IH; intros; apply H; now right].
    unfold Steps. cbn. rewrite piece_token_ok by (apply H; now left). apply Returns_ret.
Qed.

Lemma Tokenize_yields r : (forall x, In x (pending (scan r)) -> x <> EmptyString) ->
  serr (scan r) = None -> Yields (Tokenize U scan r) (map piece_token (pending (scan r))).
Proof.
  intros H E. unfold Tokenize. destruct (scan r) as [l e]. cbn in *. subst e.
  eapply (Yields_closure _ (fun x => x = mkScanner [] None)); [apply tokenizer_emits, H| |reflexivity].
  intros x ->. exists (mkScanner [] None). split; [apply Returns_ret|reflexivity].
Qed.

Lemma Tokenize_fails r e : (forall x, In x (pending (scan r)) -> x <> EmptyString) ->
  serr (scan r) = Some e -> Fails (Tokenize U scan r) (map piece_token (pending (scan r))) e.
Proof.
  intros H E. unfold Tokenize. destruct (scan r) as [l e']. cbn in *. subst e'.
  eapply Fails_closure, tokenizer_emits, H.
Qed.

Hypothesis SC : scanner_ok scan.

(** The pieces of a string on which the scanner does not fail. *)
Definition seg (s : string) : list string := pending (scan (mkReader s None)).
Definition seg_fine (s : string) : Prop := serr (scan (mkReader s None)) = None.

Lemma TokenizeString_yields s : seg_fine s -> Yields (TokenizeString U scan s) (map piece_token (seg s)).
Proof. intros F. apply Tokenize_yields; [apply (scan_nonempty _ SC)|exact F]. Qed.

Lemma seg_concat s : seg_fine s -> sconcat (seg s) = s.
Proof. intros F. exact (scan_all _ SC (mkReader s None) F). Qed.

Lemma seg_nonempty s x : In x (seg s) -> x <> EmptyString.
Proof. apply (scan_nonempty _ SC). Qed.
End TokenizerProofs.

(* ------------------------------------------------------------------ *)
(** ** TokenizeHTML *)

Section HtmlProofs.
Variable U : unicode.
Variable scan : oracle.
Hypothesis SC : scanner_ok scan.

Definition raw_parent (a : atom) : bool := match a with Script | Style => true | _ => false end.

Definition parent_after (parent : atom) (h : htoken) : atom :=
  match h_type h, h_atom h with
  | StartTag, Script => Script
  | StartTag, Style => Style
  | _, _ => parent
  end.

(** The tokens produced for one HTML token. *)
Definition html_group (parent : atom) (h : htoken) : list token :=
  match h_type h with
  | HText => if raw_parent parent then [mkToken (h_string h) false false false]
             else map (piece_token U) (seg scan (h_string h))
  | _ => [mkToken (h_string h) true false false]
  end.

Fixpoint html_groups (parent : atom) (hs : list htoken) : list (list token) :=
  match hs with
  | [] => []
  | h :: hs' => html_group parent h :: html_groups (parent_after parent h) hs'
  end.

Definition text_fine (h : htoken) : Prop :=
  h_type h = HText -> h_string h <> EmptyString /\ seg_fine scan (h_string h).

(** While a text node is being delivered. *)
Lemma html_inside p parent l : forall ttoks s', Emits ttoks l None s' ->
  exists st, PullsX (html_next U scan) (mkHS p (Some ttoks) parent) l st /\
    exists tt1, hs_ttokens st = Some tt1 /\ hs_parser st = p /\ hs_parent st = parent /\ Nexts tt1 (None, None) s'.
Proof.
  intros ttoks s' E. remember None as e eqn:Ee. revert Ee.
  induction E as [s s' N|s o e s' N|s t s1 l e s2 N E IH]; intros Ee; [|discriminate|].
  - eexists. split; [constructor|]. eexists. cbn. repeat split; eauto.
  - destruct (IH Ee) as (st & P & H). exists st. split; [|exact H].
    eapply PX_cons; [|exact P]. destruct N as [n Hn]. exists n. intros m Hm.
    unfold html_next. cbn [hs_ttokens]. rewrite Hn by lia. reflexivity.
Qed.

Definition same_step (x y : hstate) : Prop :=
  forall r x', Steps (fun fuel st => html_next_token U scan fuel st) y r x' ->
    Steps (html_next U scan) x r x'.

Lemma same_none p parent : same_step (mkHS p None parent) (mkHS p None parent).
Proof. intros r x' H. exact H. Qed.

Lemma same_end p parent tt1 s' : Nexts tt1 (None, None) s' ->
  same_step (mkHS p (Some tt1) parent) (mkHS p None parent).
Proof.
  intros [n Hn] r x' [m Hm]. exists (Nat.max n m). intros k Hk. unfold html_next. cbn [hs_ttokens].
  rewrite Hn by lia. cbn. apply Hm. lia.
Qed.

(** The states between two HTML tokens. *)
Definition between (p : hparser) (parent : atom) (st : hstate) : Prop :=
  same_step st (mkHS p None parent).

Lemma html_group_pulls e post : forall hs parent st,
  Forall text_fine hs -> between (mkHP (hs ++ post) e) parent st ->
  exists st', PullsX (html_next U scan) st (concat (html_groups parent hs)) st' /\
    between (mkHP post e) (fold_left parent_after hs parent) st'.
Proof.
  induction hs as [|h hs IH]; intros parent st F B.
  - exists st. split; [constructor|exact B].
  - inversion F as [|h' hs' Fh Fhs]; subst. cbn [html_groups concat fold_left]. cbn [app] in B.
    assert (Single : forall t parent', html_group parent h = [t] -> parent_after parent h = parent' ->
      Steps (fun fuel st => html_next_token U scan fuel st) (mkHS (mkHP (h :: hs ++ post) e) None parent)
        (Some t, None) (mkHS (mkHP (hs ++ post) e) None parent') ->
      exists st', PullsX (html_next U scan) st (html_group parent h ++ concat (html_groups (parent_after parent h) hs)) st' /\
        between (mkHP post e) (fold_left parent_after hs (parent_after parent h)) st').
    { intros t parent' G P S. destruct (IH parent' (mkHS (mkHP (hs ++ post) e) None parent') Fhs (same_none _ _)) as (st' & E & H).
      rewrite G, P. exists st'. split; [|exact H]. cbn. eapply PX_cons; [apply B, S|exact E]. }
    destruct h as [ty a v]. destruct ty.
    + destruct a; (eapply Single; [reflexivity|reflexivity|apply Returns_ret]).
    + eapply Single; [reflexivity|destruct a; reflexivity|].
      unfold Steps. cbn. destruct (atom_eqb a parent); apply Returns_ret.
    + eapply Single; [reflexivity|destruct a; reflexivity|apply Returns_ret].
    + destruct (raw_parent parent) eqn:R.
      * eapply Single; [unfold html_group; cbn; rewrite R; reflexivity|destruct a; reflexivity|].
        unfold Steps. cbn. destruct parent; try discriminate; apply Returns_ret.
      * destruct (Fh eq_refl) as [NE SF]. cbn in NE, SF.
        unfold html_group. cbn. rewrite R.
        destruct (TokenizeString_yields U scan SC v SF) as (s' & E & Q).
        pose proof (seg_concat scan SC v SF) as CC.
        destruct (seg scan v) as [|x xs] eqn:SV; [cbn in CC; congruence|].
        clear CC SV. cbn [map] in *. inversion E as [| |s t s1 l e0 s2 N E2]; subst.
        destruct (html_inside (mkHP (hs ++ post) e) parent _ _ _ E2) as (st2 & P & tt1 & T1 & T2 & T3 & T4).
        destruct (IH parent st2 Fhs) as (st' & E3 & H).
        { destruct st2 as [p2 o2 par2]. cbn in *. subst. eapply same_end, T4. }
        replace (parent_after parent (mkH HText a v)) with parent by (destruct a; reflexivity).
        exists st'. split; [|exact H].
        cbn [app]. eapply PX_cons; [|eapply PullsX_app; [exact P|exact E3]].
        apply B. destruct N as [n Hn]. exists n. intros m Hm.
        unfold html_next_token. cbn [hs_parser hpending herr h_type hs_parent h_string hs_ttokens].
        destruct parent; try discriminate; rewrite Hn by lia; reflexivity.
    + eapply Single; [reflexivity|destruct a; reflexivity|apply Returns_ret].
    + eapply Single; [reflexivity|destruct a; reflexivity|apply Returns_ret].
Qed.

Lemma html_group_emits e hs parent st :
  Forall text_fine hs -> between (mkHP hs e) parent st ->
  exists st', EmitsX (html_next U scan) st (concat (html_groups parent hs)) e st' /\
    exists parent', st' = mkHS (mkHP [] e) None parent'.
Proof.
  intros F B. destruct (html_group_pulls e [] hs parent st F) as (st1 & P & B1); [now rewrite app_nil_r|].
  eexists. split; [|eexists; reflexivity]. rewrite <- (app_nil_r (concat _)). eapply PullsX_EmitsX; [exact P|].
  destruct e; [eapply EX_err|apply EX_eof]; apply B1; apply Returns_ret.
Qed.

(** A text node on which the scanner fails. *)
Lemma html_inside_fails p parent l e : forall ttoks s', Emits ttoks l (Some e) s' ->
  exists st, EmitsX (html_next U scan) (mkHS p (Some ttoks) parent) l (Some e) st.
Proof.
  intros ttoks s' E. remember (Some e) as x eqn:Ex. revert Ex.
  induction E as [s s' N|s o x s' N|s t s1 l x s2 N E IH]; intros Ex; [discriminate| |].
  - injection Ex as ->. eexists. eapply EX_err. destruct N as [n Hn]. exists n. intros m Hm.
    unfold html_next. cbn [hs_ttokens]. rewrite Hn by lia. destruct o; reflexivity.
  - destruct (IH Ex) as (st & P). exists st.
    eapply EX_cons; [|exact P]. destruct N as [n Hn]. exists n. intros m Hm.
    unfold html_next. cbn [hs_ttokens]. rewrite Hn by lia. reflexivity.
Qed.

Lemma html_text_fails pre h post x e : Forall text_fine pre -> h_type h = HText ->
  raw_parent (fold_left parent_after pre AtomZero) = false -> serr (scan (mkReader (h_string h) None)) = Some e ->
  Fails (TokenizeHTML U scan (mkHP (pre ++ h :: post) x))
    (concat (html_groups AtomZero pre) ++ map (piece_token U) (seg scan (h_string h))) e.
Proof.
  intros F T R SE. destruct (html_group_pulls x (h :: post) pre AtomZero _ F (same_none _ _)) as (st1 & P & B).
  destruct (Tokenize_fails U scan (mkReader (h_string h) None) e (scan_nonempty _ SC _) SE) as (s' & E).
  change (Emits (TokenizeString U scan (h_string h)) (map (piece_token U) (seg scan (h_string h))) (Some e) s') in E.
  set (parent := fold_left parent_after pre AtomZero) in *. destruct h as [ty a v]. cbn in T, E, SE |- *. subst ty.
  assert (Step : forall r tt1, Nexts (TokenizeString U scan v) r tt1 ->
    Steps (html_next U scan) st1 r (mkHS (mkHP post x) (Some tt1) parent)).
  { intros r tt1 [n Hn]. apply B. exists n. intros m Hm. unfold html_next_token.
    cbn [hs_parser hpending herr h_type hs_parent h_string hs_ttokens].
    destruct parent; try discriminate R; rewrite Hn by lia; reflexivity. }
  assert (exists st, EmitsX (html_next U scan) st1 (map (piece_token U) (seg scan v)) (Some e) st) as (st & E2).
  { inversion E as [|s o e1 s1 N|s t s1 l e1 s2 N E1]; subst.
    - eexists. eapply EX_err, Step, N.
    - destruct (html_inside_fails (mkHP post x) parent _ _ _ _ E1) as (st & E2). exists st. eapply EX_cons; [apply Step, N|exact E2]. }
  eapply Fails_closure, PullsX_EmitsX; [exact P|exact E2].
Qed.

Lemma html_yields hs : Forall text_fine hs ->
  Yields (TokenizeHTML U scan (mkHP hs None)) (concat (html_groups AtomZero hs)).
Proof.
  intros F. destruct (html_group_emits None hs AtomZero _ F (same_none _ _)) as (st' & E & (p & ->)).
  eapply (Yields_closure _ (fun st => exists p, st = mkHS (mkHP [] None) None p)); [exact E| |eauto].
  intros x (q & ->). eexists. split; [apply Returns_ret|eauto].
Qed.

Lemma html_fails hs e : Forall text_fine hs ->
  Fails (TokenizeHTML U scan (mkHP hs (Some e))) (concat (html_groups AtomZero hs)) e.
Proof.
  intros F. destruct (html_group_emits (Some e) hs AtomZero _ F (same_none _ _)) as (st' & E & _).
  eapply Fails_closure, E.
Qed.

Lemma html_group_text parent h : text_fine h -> text (html_group parent h) = h_string h.
Proof.
  intros F. unfold html_group. destruct (h_type h) eqn:T; try (cbn; apply sapp_nil_r).
  destruct (raw_parent parent); [cbn; apply sapp_nil_r|]. rewrite text_pieces.
  apply seg_concat; auto. apply F; auto.
Qed.
End HtmlProofs.

(* ------------------------------------------------------------------ *)
(** ** Contractions *)

Section ContractionsProofs.
Variable U : unicode.
Variable scan : oracle.
Variable mappings : list (string * string).
Hypothesis SC : scanner_ok scan.
Hypothesis fine : forall k v, In (k, v) mappings -> seg_fine scan v.

(** The expansion that applies to a token text. *)
Definition lookup_expansion (v : string) : option string :=
  match assoc v mappings with
  | Some e => Some e
  | None => assoc (strings_ToLower U v) mappings
  end.

Definition expand_token (t : token) : list token :=
  match lookup_expansion (tvalue t) with
  | Some e => match map (piece_token U) (seg scan e) with [] => [t] | l => l end
  | None => [t]
  end.

Lemma assoc_In {V} k (m : list (string * V)) v : assoc k m = Some v -> In (k, v) m.
Proof.
  induction m as [|[k' v'] m IH]; cbn; [discriminate|]. destruct (seqb k k') eqn:E.
  - apply seqb_eq in E. intros H. left. congruence.
  - auto.
Qed.

Lemma tryExpansion_spec out t ic :
  Returns (fun n => tryExpansion U scan mappings n out t ic)
    (match assoc (if ic then strings_ToLower U (tvalue t) else tvalue t) mappings with
     | Some e => (true, None, out ++ map (piece_token U) (seg scan e))
     | None => (false, None, out)
     end).
Proof.
  unfold tryExpansion. destruct (assoc _ mappings) as [e|] eqn:A; [|apply Returns_ret].
  pose proof (fine _ _ (assoc_In _ _ _ A)) as F.
  destruct (TokenizeString_yields U scan SC e F) as (s' & E & Q).
  destruct (ToSlice_emits _ _ _ _ E) as (s2 & _ & [n Hn]).
  exists n. intros m Hm. rewrite Hn by lia. reflexivity.
Qed.

Lemma contr_queue s q t : Steps (contractions_next U scan mappings) (mkCS s (t :: q)) (Some t, None) (mkCS s q).
Proof. exists 0. intros m _. reflexivity. Qed.

Lemma contr_drain s q : forall s', s = s' -> PullsX (contractions_next U scan mappings) (mkCS s q) q (mkCS s' []).
Proof.
  intros s' <-. induction q as [|t q IH]; [constructor|]. eapply PX_cons; [apply contr_queue|exact IH].
Qed.

Lemma contr_token s t s1 : Nexts s (Some t, None) s1 ->
  PullsX (contractions_next U scan mappings) (mkCS s []) (expand_token t) (mkCS s1 []).
Proof.
  intros [n0 Hn0]. unfold expand_token, lookup_expansion.
  destruct (tryExpansion_spec [] t false) as [n1 Hn1].
  destruct (tryExpansion_spec [] t true) as [n2 Hn2].
  assert (R : forall e, lookup_expansion (tvalue t) = Some e ->
    Steps (contractions_next U scan mappings) (mkCS s [])
      (match map (piece_token U) (seg scan e) with [] => Some t | x :: _ => Some x end, None)
      (mkCS s1 (match map (piece_token U) (seg scan e) with [] => [] | _ :: r => r end))).
  { intros e L. exists (Nat.max n0 (Nat.max n1 n2)). intros m Hm.
    unfold contractions_next. cbn [c_out q_any q_len length Nat.ltb Nat.leb c_in].
    rewrite Hn0 by lia. cbn [bind]. rewrite Hn1 by lia. unfold lookup_expansion in L. cbv beta iota in *.
    destruct (assoc (tvalue t) mappings) as [e1|] eqn:A1.
    - inversion L; subst. cbn [bind app]. destruct (map (piece_token U) (seg scan e)); reflexivity.
    - cbn [bind]. rewrite Hn2 by lia. rewrite L. cbn [bind app].
      destruct (map (piece_token U) (seg scan e)); reflexivity. }
  destruct (lookup_expansion (tvalue t)) as [e|] eqn:L.
  - fold (lookup_expansion (tvalue t)). rewrite L. specialize (R e eq_refl).
    destruct (map (piece_token U) (seg scan e)) as [|x xs].
    + eapply PX_cons; [exact R|constructor].
    + eapply PX_cons; [exact R|apply contr_drain; reflexivity].
  - fold (lookup_expansion (tvalue t)). rewrite L. clear R.
    eapply PX_cons; [|constructor]. exists (Nat.max n0 (Nat.max n1 n2)). intros m Hm.
    unfold contractions_next. cbn [c_out q_any q_len length Nat.ltb Nat.leb c_in].
    rewrite Hn0 by lia. cbn [bind]. rewrite Hn1 by lia. unfold lookup_expansion in L. cbv beta iota in *.
    destruct (assoc (tvalue t) mappings) as [e1|] eqn:A1; [discriminate|].
    cbn [bind]. rewrite Hn2 by lia. rewrite L. reflexivity.
Qed.

Lemma contr_emits s l e s' : Emits s l e s' ->
  EmitsX (contractions_next U scan mappings) (mkCS s []) (flat_map expand_token l) e (mkCS s' []).
Proof.
  induction 1 as [s s' [n N]|s o e s' [n N]|s t s1 l e s2 N E IH].
  - apply EX_eof. exists n. intros m Hm. unfold contractions_next. cbn [c_out q_any q_len length Nat.ltb Nat.leb c_in].
    rewrite N by lia. reflexivity.
  - apply (EX_err _ _ None). exists n. intros m Hm. unfold contractions_next. cbn [c_out q_any q_len length Nat.ltb Nat.leb c_in].
    rewrite N by lia. destruct o; reflexivity.
  - cbn [flat_map]. eapply PullsX_EmitsX; [apply contr_token, N|exact IH].
Qed.

Lemma Contractions_yields s l : Yields s l -> Yields (Contractions U scan mappings s) (flat_map expand_token l).
Proof.
  intros (s' & E & Q). eapply (Yields_closure _ (fun st => exists s, st = mkCS s [] /\ Quiet s)).
  - apply contr_emits, E.
  - intros x (s1 & -> & [s2 [n N] Q2]). exists (mkCS s2 []). split; [|eauto].
    exists n. intros m Hm. unfold contractions_next. cbn [c_out q_any q_len length Nat.ltb Nat.leb c_in].
    rewrite N by lia. reflexivity.
  - eauto.
Qed.

Lemma Contractions_fails s l e : Fails s l e -> Fails (Contractions U scan mappings s) (flat_map expand_token l) e.
Proof. intros (s' & E). eapply Fails_closure, contr_emits, E. Qed.

Lemma contr_pulls s l s' : Pulls s l s' ->
  PullsX (contractions_next U scan mappings) (mkCS s []) (flat_map expand_token l) (mkCS s' []).
Proof.
  induction 1; cbn [flat_map]; [constructor|]. eapply PullsX_app; [apply contr_token; eassumption|assumption].
Qed.

Lemma Contractions_lazy s l s' : Pulls s l s' ->
  exists w, Pulls (Contractions U scan mappings s) (flat_map expand_token l) w /\
    ts_next w = ts_next (Contractions U scan mappings s').
Proof.
  intros H. destruct (PullsX_Pulls _ _ _ _ (contr_pulls _ _ _ H) None None) as (a & b & A).
  eexists. split; [exact A|reflexivity].
Qed.
End ContractionsProofs.

(* ------------------------------------------------------------------ *)
(** ** Sigil *)

Section SigilProofs.
Variable U : unicode.
Variable sigil : string.
Variable legal : string -> bool.
Hypothesis sigil_ne : sigil <> EmptyString.

Definition boundary_ok (prev : option token) : bool :=
  match prev with None => true | Some p => tspace p || tpunct p end.

Definition merged (t : token) : token :=
  match NewToken U (sigil ++ tvalue t)%string true with Some m => m | None => t end.

Lemma merged_ok t : NewToken U (sigil ++ tvalue t)%string true = Some (merged t).
Proof.
  unfold merged. destruct (NewToken_cons U (sigil ++ tvalue t)%string true) as (m & ->); [|reflexivity].
  destruct sigil; [congruence|discriminate].
Qed.

(** What the filter does with a whole input that ends cleanly, resp. with an error: [lost] is the
    sigil token that is swallowed when the error arrives as look-ahead. *)
Fixpoint sigil_out (failing : bool) (prev : option token) (l : list token) {struct l} : list token :=
  match l with
  | [] => []
  | c :: l' =>
    if boundary_ok prev && seqb (tvalue c) sigil then
      match l' with
      | [] => if failing then [] else [c]
      | b :: l'' =>
        if legal (tvalue b) then merged b :: sigil_out failing (Some (merged b)) l''
        else c :: b :: sigil_out failing (Some c) l''
      end
    else c :: sigil_out failing (Some c) l'
  end.

Definition SX := EmitsX (sigil_next U sigil legal).

Lemma sigil_eof s prev s' : Nexts s (None, None) s' ->
  Steps (sigil_next U sigil legal) (mkSS s prev []) (None, None) (mkSS s' prev []).
Proof.
  intros [n Hn]. exists n. intros m Hm. unfold sigil_next. cbn [s_out q_any q_len length Nat.ltb Nat.leb s_in].
  rewrite Hn by lia. reflexivity.
Qed.

Lemma sigil_err s prev o e s' : Nexts s (o, Some e) s' ->
  Steps (sigil_next U sigil legal) (mkSS s prev []) (None, Some e) (mkSS s' prev []).
Proof.
  intros [n Hn]. exists n. intros m Hm. unfold sigil_next. cbn [s_out q_any q_len length Nat.ltb Nat.leb s_in].
  rewrite Hn by lia. destruct o; reflexivity.
Qed.

Lemma sigil_plain s prev c s' : Nexts s (Some c, None) s' ->
  boundary_ok prev && seqb (tvalue c) sigil = false ->
  Steps (sigil_next U sigil legal) (mkSS s prev []) (Some c, None) (mkSS s' (Some c) []).
Proof.
  intros [n Hn] B. exists n. intros m Hm. unfold sigil_next. cbn [s_out q_any q_len length Nat.ltb Nat.leb s_in s_prev].
  rewrite Hn by lia. cbn [bind]. fold (boundary_ok prev). destruct (boundary_ok prev); cbn [negb]; [|reflexivity].
  cbn in B. unfold sigil_try. rewrite B. reflexivity.
Qed.

Lemma sigil_merge s prev c s1 b s2 : Nexts s (Some c, None) s1 -> Nexts s1 (Some b, None) s2 ->
  boundary_ok prev && seqb (tvalue c) sigil = true -> legal (tvalue b) = true ->
  Steps (sigil_next U sigil legal) (mkSS s prev []) (Some (merged b), None) (mkSS s2 (Some (merged b)) []).
Proof.
  intros [n Hn] [n2 Hn2] B L. apply andb_true_iff in B. destruct B as [B1 B2].
  exists (Nat.max n n2). intros m Hm. unfold sigil_next. cbn [s_out q_any q_len length Nat.ltb Nat.leb s_in s_prev].
  rewrite Hn by lia. cbn [bind]. fold (boundary_ok prev). rewrite B1. cbn [negb].
  unfold sigil_try. rewrite B2. cbn [negb s_in s_prev s_out]. rewrite Hn2 by lia. cbn [bind]. rewrite L, merged_ok.
  reflexivity.
Qed.

Lemma sigil_queue s prev c s1 b s2 : Nexts s (Some c, None) s1 -> Nexts s1 (Some b, None) s2 ->
  boundary_ok prev && seqb (tvalue c) sigil = true -> legal (tvalue b) = false ->
  PullsX (sigil_next U sigil legal) (mkSS s prev []) [c; b] (mkSS s2 (Some c) []).
Proof.
  intros [n Hn] [n2 Hn2] B L. apply andb_true_iff in B. destruct B as [B1 B2].
  eapply PX_cons; [|eapply PX_cons; [|constructor]].
  - exists (Nat.max n n2). intros m Hm. unfold sigil_next. cbn [s_out q_any q_len length Nat.ltb Nat.leb s_in s_prev].
    rewrite Hn by lia. cbn [bind]. fold (boundary_ok prev). rewrite B1. cbn [negb].
    unfold sigil_try. rewrite B2. cbn [negb s_in s_prev s_out]. rewrite Hn2 by lia. cbn [bind]. rewrite L. reflexivity.
  - exists 0. intros m _. reflexivity.
Qed.

(** The last token is a sigil at a boundary and the source ends cleanly. *)
Lemma sigil_last s prev c s1 s2 : Nexts s (Some c, None) s1 -> Nexts s1 (None, None) s2 ->
  boundary_ok prev && seqb (tvalue c) sigil = true ->
  Steps (sigil_next U sigil legal) (mkSS s prev []) (Some c, None) (mkSS s2 (Some c) []).
Proof.
  intros [n Hn] [n2 Hn2] B. apply andb_true_iff in B. destruct B as [B1 B2].
  exists (Nat.max n n2). intros m Hm. unfold sigil_next. cbn [s_out q_any q_len length Nat.ltb Nat.leb s_in s_prev].
  rewrite Hn by lia. cbn [bind]. fold (boundary_ok prev). rewrite B1. cbn [negb].
  unfold sigil_try. rewrite B2. cbn [negb s_in s_prev s_out]. rewrite Hn2 by lia. reflexivity.
Qed.

Lemma sigil_lost s prev c s1 o e s2 : Nexts s (Some c, None) s1 -> Nexts s1 (o, Some e) s2 ->
  boundary_ok prev && seqb (tvalue c) sigil = true ->
  Steps (sigil_next U sigil legal) (mkSS s prev []) (None, Some e) (mkSS s2 prev []).
Proof.
  intros [n Hn] [n2 Hn2] B. apply andb_true_iff in B. destruct B as [B1 B2].
  exists (Nat.max n n2). intros m Hm. unfold sigil_next. cbn [s_out q_any q_len length Nat.ltb Nat.leb s_in s_prev].
  rewrite Hn by lia. cbn [bind]. fold (boundary_ok prev). rewrite B1. cbn [negb].
  unfold sigil_try. rewrite B2. cbn [negb s_in s_prev s_out]. rewrite Hn2 by lia. destruct o; reflexivity.
Qed.

Lemma sigil_fails_emits n : forall l s e s' prev, length l <= n -> Emits s l (Some e) s' ->
  exists prev', SX (mkSS s prev []) (sigil_out true prev l) (Some e) (mkSS s' prev' []).
Proof.
  induction n as [|n IH]; intros l s e s' prev L E.
  - destruct l; [|cbn in L; lia]. inversion E; subst. eexists. eapply EX_err, sigil_err; eassumption.
  - destruct l as [|c l]; [inversion E; subst; eexists; eapply EX_err, sigil_err; eassumption|].
    inversion E as [| |s0 t s1 l0 e0 s2 N E2]; subst. cbn [sigil_out].
    destruct (boundary_ok prev && seqb (tvalue c) sigil) eqn:B.
    + destruct l as [|b l].
      * inversion E2; subst. eexists. eapply EX_err, sigil_lost; eassumption.
      * inversion E2 as [| |s0 t s3 l0 e0 s4 N2 E3]; subst. cbn in L.
        destruct (legal (tvalue b)) eqn:Lg.
        -- destruct (IH l _ _ _ (Some (merged b)) ltac:(lia) E3) as (p' & X). exists p'.
           eapply EX_cons; [eapply sigil_merge; eassumption|exact X].
        -- destruct (IH l _ _ _ (Some c) ltac:(lia) E3) as (p' & X). exists p'.
           apply (PullsX_EmitsX _ _ [c; b] _ _ _ _ (sigil_queue _ _ _ _ _ _ N N2 B Lg) X).
    + cbn in L. destruct (IH l _ _ _ (Some c) ltac:(lia) E2) as (p' & X). exists p'.
      eapply EX_cons; [eapply sigil_plain; eassumption|exact X].
Qed.

Definition sigil_q (st : sstate) : Prop := exists s prev, st = mkSS s prev [] /\ Quiet s.

Lemma sigil_quiet st : sigil_q st -> exists st', Steps (sigil_next U sigil legal) st (None, None) st' /\ sigil_q st'.
Proof.
  intros (s & prev & -> & [s' N Q]). eexists. split; [apply sigil_eof, N|]. exists s', prev. auto.
Qed.

Lemma sigil_yields_emits n : forall l s s' prev, length l <= n -> Emits s l None s' -> Quiet s' ->
  exists st', SX (mkSS s prev []) (sigil_out false prev l) None st' /\ sigil_q st'.
Proof.
  induction n as [|n IH]; intros l s s' prev L E Q.
  - destruct l; [|cbn in L; lia]. inversion E; subst. eexists.
    split; [eapply EX_eof, sigil_eof; eassumption|]. exists s', prev; auto.
  - destruct l as [|c l].
    { inversion E; subst. eexists. split; [eapply EX_eof, sigil_eof; eassumption|]. exists s', prev; auto. }
    inversion E as [| |s0 t s1 l0 e0 s2 N E2]; subst. cbn [sigil_out].
    destruct (boundary_ok prev && seqb (tvalue c) sigil) eqn:B.
    + destruct l as [|b l].
      * inversion E2; subst. destruct Q as [s'' N2 Q2]. eexists. split.
        -- eapply EX_cons; [eapply sigil_last; eassumption|]. eapply EX_eof, sigil_eof, N2.
        -- exists s'', (Some c); auto.
      * inversion E2 as [| |s0 t s3 l0 e0 s4 N2 E3]; subst. cbn in L.
        destruct (legal (tvalue b)) eqn:Lg.
        -- destruct (IH l _ _ (Some (merged b)) ltac:(lia) E3 Q) as (p' & X & Y). exists p'.
           split; [|exact Y]. eapply EX_cons; [eapply sigil_merge; eassumption|exact X].
        -- destruct (IH l _ _ (Some c) ltac:(lia) E3 Q) as (p' & X & Y). exists p'. split; [|exact Y].
           apply (PullsX_EmitsX _ _ [c; b] _ _ _ _ (sigil_queue _ _ _ _ _ _ N N2 B Lg) X).
    + cbn in L. destruct (IH l _ _ (Some c) ltac:(lia) E2 Q) as (p' & X & Y). exists p'. split; [|exact Y].
      eapply EX_cons; [eapply sigil_plain; eassumption|exact X].
Qed.

Lemma Sigil_yields s l : Yields s l -> Yields (Sigil U sigil legal s) (sigil_out false None l).
Proof.
  intros (s' & E & Q). destruct (sigil_yields_emits _ _ _ _ None (le_n _) E Q) as (st' & X & Y).
  eapply (Yields_closure _ sigil_q); [exact X|apply sigil_quiet|exact Y].
Qed.

Lemma Sigil_fails s l e : Fails s l e -> Fails (Sigil U sigil legal s) (sigil_out true None l) e.
Proof.
  intros (s' & E). destruct (sigil_fails_emits _ _ _ _ _ None (le_n _) E) as (p' & X).
  eapply Fails_closure, X.
Qed.
End SigilProofs.
