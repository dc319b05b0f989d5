(** * Lemmas behind C13, C15, C16 *)

From Verif Require Import Base Utf8 Unicode Token Stream StreamSpec ListSpec Tokenizer Html FilterSpec
  StreamProofs TokenProofs FilterProofs WordsProofs.

Lemma piece_token_made U l : (forall x, In x l -> x <> EmptyString) ->
  Forall (fun t => NewToken U (tvalue t) false = Some t) (map (piece_token U) l).
Proof.
  intros H. apply Forall_forall. intros t Ht. apply in_map_iff in Ht. destruct Ht as (x & <- & Hx).
  rewrite piece_token_value. apply piece_token_ok, H, Hx.
Qed.

Lemma C13_lemma (U : unicode) (scan : oracle) (r : reader) : scanner_ok scan ->
  exists l,
    Forall (fun t => NewToken U (tvalue t) false = Some t) l /\
    map tvalue l = pending (scan r) /\
    (exists unread, rdata r = (text l ++ unread)%string) /\
    match serr (scan r) with
    | None => rerr r = None /\ Yields (Tokenize U scan r) l /\ text l = rdata r
    | Some e => Fails (Tokenize U scan r) l e
    end.
Proof.
  intros SC. exists (map (piece_token U) (pending (scan r))).
  pose proof (scan_nonempty _ SC r) as NE.
  split; [now apply piece_token_made|]. split; [apply piece_tokens_value|].
  split; [rewrite text_pieces; apply SC|].
  destruct (serr (scan r)) as [e|] eqn:E; [now apply Tokenize_fails|].
  split; [|split; [now apply Tokenize_yields|rewrite text_pieces; now apply SC]].
  destruct (rerr r) as [e|] eqn:R; [|reflexivity]. exfalso. eapply (scan_err _ SC); eauto.
Qed.

Lemma C13_ideal_lemma (U : unicode) (seg : string -> list string) (r : reader) : seg_ok seg ->
  exists l,
    Forall (fun t => NewToken U (tvalue t) false = Some t) l /\ text l = rdata r /\
    match rerr r with
    | None => Yields (Tokenize U (scan_of seg) r) l
    | Some e => Fails (Tokenize U (scan_of seg) r) l e
    end.
Proof.
  intros SO. destruct (C13_lemma U (scan_of seg) r (scan_of_ok _ SO)) as (l & A & B & C & D).
  exists l. split; [exact A|]. split.
  - unfold text. rewrite B. apply SO.
  - cbn in D. destruct (rerr r); [exact D|apply D].
Qed.

Lemma html_groups_pieces U scan : scanner_ok scan -> forall hs parent, Forall (text_fine scan) hs ->
  Forall2 (html_piece U scan) hs (html_groups U scan parent hs).
Proof.
  intros SC. induction hs as [|h hs IH]; intros parent F; cbn; [constructor|].
  inversion F; subst. constructor; [|auto]. split; [now apply html_group_text|].
  unfold html_group. split; intros T.
  - destruct (h_type h); try reflexivity. congruence.
  - rewrite T. destruct (raw_parent parent); [now left|right]. apply TokenizeString_yields; auto. now apply H1.
Qed.

Lemma C15_lemma (U : unicode) (scan : oracle) (hs : list htoken) : scanner_ok scan ->
  (forall h, In h hs -> h_type h = HText ->
     h_string h <> EmptyString /\ serr (scan (mkReader (h_string h) None)) = None) ->
  exists groups,
    Forall2 (html_piece U scan) hs groups /\
    text (concat groups) = sconcat (map h_string hs) /\
    Yields (TokenizeHTML U scan (mkHP hs None)) (concat groups) /\
    (forall e, Fails (TokenizeHTML U scan (mkHP hs (Some e))) (concat groups) e).
Proof.
  intros SC F. assert (F' : Forall (text_fine scan) hs) by (apply Forall_forall; intros h Hh T; now apply F).
  exists (html_groups U scan AtomZero hs).
  pose proof (html_groups_pieces U scan SC hs AtomZero F') as P.
  split; [exact P|]. split; [|split; [now apply html_yields|intros; now apply html_fails]].
  clear F F'. induction P as [|h g hs gs [T _] P IH]; cbn [concat map sconcat]; [reflexivity|]. now rewrite text_app, T, IH.
Qed.

(** ** C16 *)

Lemma html_groups_app U scan hs1 : forall parent hs2,
  html_groups U scan parent (hs1 ++ hs2)
  = html_groups U scan parent hs1 ++ html_groups U scan (fold_left parent_after hs1 parent) hs2.
Proof. induction hs1; intros; cbn; [reflexivity|]. now rewrite IHhs1. Qed.

Lemma parent_after_raw h parent :
  raw_parent (parent_after parent h) = true <-> raw_parent parent = true \/ raw_start h.
Proof.
  unfold parent_after, raw_start. destruct (h_type h), (h_atom h); cbn; intuition (try congruence).
Qed.

Lemma parent_raw pre : forall parent,
  raw_parent (fold_left parent_after pre parent) = true <-> raw_parent parent = true \/ exists h, In h pre /\ raw_start h.
Proof.
  induction pre as [|h pre IH]; intros parent; cbn.
  - split; [auto|]. intros [H|(h & [] & _)]; exact H.
  - rewrite IH, parent_after_raw. split.
    + intros [[H|H]|(x & H1 & H2)]; eauto.
    + intros [H|(x & [<-|H1] & H2)]; eauto.
Qed.

Lemma html_at U scan pre h post : scanner_ok scan -> Forall (text_fine scan) (pre ++ h :: post) -> h_type h = HText ->
  exists l1 g l2, Yields (TokenizeHTML U scan (mkHP (pre ++ h :: post) None)) (l1 ++ g ++ l2) /\
    text l1 = sconcat (map h_string pre) /\
    ((forall x, In x pre -> ~ raw_start x) -> Yields (TokenizeString U scan (h_string h)) g) /\
    ((exists x, In x pre /\ raw_start x) -> g = [mkToken (h_string h) false false false]).
Proof.
  intros SC F T. exists (concat (html_groups U scan AtomZero pre)).
  exists (html_group U scan (fold_left parent_after pre AtomZero) h). eexists.
  split; [|split].
  - pose proof (html_yields U scan SC _ F) as Y. rewrite html_groups_app, concat_app in Y. exact Y.
  - apply Forall_app in F. destruct F as [F _]. pose proof (html_groups_pieces U scan SC pre AtomZero F) as P.
    clear - P. induction P as [|x g hs gs [X _] P IH]; cbn [concat map sconcat]; [reflexivity|]. now rewrite text_app, X, IH.
  - unfold html_group. rewrite T. pose proof (parent_raw pre AtomZero) as R. cbn in R.
    apply Forall_app in F. destruct F as [_ F]. inversion F as [|? ? Fh _]; subst.
    destruct (raw_parent (fold_left parent_after pre AtomZero)).
    + split; [|auto]. intros N. destruct R as [R _]. destruct (R eq_refl) as [|(x & A & B)]; [discriminate|]. now apply N in A.
    + split; [intros _; apply TokenizeString_yields; auto; now apply Fh|]. intros X. destruct R as [_ R].
      discriminate (R (or_intror X)).
Qed.

Lemma C15_error_lemma (U : unicode) (scan : oracle) pre h post x e : scanner_ok scan ->
  (forall y, In y pre -> h_type y = HText ->
     h_string y <> EmptyString /\ serr (scan (mkReader (h_string y) None)) = None) ->
  (forall y, In y pre -> ~ raw_start y) ->
  h_type h = HText -> serr (scan (mkReader (h_string h) None)) = Some e ->
  exists l g, Yields (TokenizeHTML U scan (mkHP pre None)) l /\ Fails (TokenizeString U scan (h_string h)) g e /\
    Fails (TokenizeHTML U scan (mkHP (pre ++ h :: post) x)) (l ++ g) e.
Proof.
  intros SC F NR T SE. assert (F' : Forall (text_fine scan) pre) by (apply Forall_forall; intros y Hy Ty; now apply F).
  do 2 eexists. split; [now apply html_yields|]. split; [now apply Tokenize_fails; [apply SC|]|].
  apply html_text_fails; auto. destruct (raw_parent (fold_left parent_after pre AtomZero)) eqn:R; [|reflexivity].
  apply parent_raw in R. destruct R as [R|(y & Hy & Ry)]; [discriminate|]. now apply NR in Hy.
Qed.

From Verif Require Import UnicodeData Words.
Local Open Scope string_scope.

Definition script_doc : list htoken :=
  [mkH StartTag Script "<script>"; mkH HText AtomZero "x"; mkH EndTag Script "</script>"].

Lemma script_doc_closed : ~ inside_raw script_doc.
Proof.
  intros (a & h & b & E & [T A] & N). unfold script_doc in E.
  destruct a as [|a1 [|a2 [|a3 a]]]; cbn in E; inversion E; subst; cbn in *; try discriminate.
  - apply (N (mkH EndTag Script "</script>")); [cbn; auto|]. split; cbn; auto.
  - destruct a; discriminate.
Qed.

Lemma C16_refutation :
  ~ (forall U scan pre h post, scanner_ok scan ->
     (forall x, In x (pre ++ h :: post) -> h_type x = HText ->
        h_string x <> EmptyString /\ serr (scan (mkReader (h_string x) None)) = None) ->
     h_type h = HText -> ~ inside_raw pre ->
     exists l1 g l2, Yields (TokenizeHTML U scan (mkHP (pre ++ h :: post) None)) (l1 ++ g ++ l2) /\
       text l1 = sconcat (map h_string pre) /\
       Yields (TokenizeString U scan (h_string h)) g).
Proof.
  intros H. destruct (H go_unicode words_scan script_doc (mkH HText AtomZero "a b") [] words_scan_ok) as (l1 & g & l2 & Y & T & G).
  - intros x Hx _. cbn in Hx. repeat (destruct Hx as [<-|Hx]; [split; [discriminate|reflexivity]|]). destruct Hx.
  - reflexivity.
  - apply script_doc_closed.
  - assert (F : Forall (text_fine words_scan) (script_doc ++ [mkH HText AtomZero "a b"])).
    { repeat constructor; discriminate. }
    pose proof (Yields_inj _ _ _ Y (html_yields go_unicode words_scan words_scan_ok _ F)) as E. clear Y.
    assert (F2 : seg_fine words_scan "a b") by reflexivity.
    pose proof (Yields_inj _ _ _ G (TokenizeString_yields go_unicode words_scan words_scan_ok "a b" F2)) as E2. clear G.
    apply (f_equal (@length token)) in E2. vm_compute in E2.
    apply (f_equal (map tvalue)) in E. unfold text in T.
    match type of E with _ = ?r => let v := eval vm_compute in r in change r with v in E end.
    rewrite map_app in E.
    match type of T with _ = ?r => let v := eval vm_compute in r in change r with v in T end.
    destruct l1 as [|t1 [|t2 l1]]; cbn [map sconcat app] in *.
    + discriminate.
    + inversion E. rewrite H1 in T. discriminate.
    + apply (f_equal (@length string)) in E. cbn [length] in E. rewrite map_app, !app_length, !map_length in E. cbn in E. change (length g = 3) in E2. lia.
Qed.

Lemma C16_partial_lemma U scan pre h post : scanner_ok scan ->
  (forall x, In x (pre ++ h :: post) -> h_type x = HText ->
     h_string x <> EmptyString /\ serr (scan (mkReader (h_string x) None)) = None) ->
  h_type h = HText ->
  exists l1 g l2, Yields (TokenizeHTML U scan (mkHP (pre ++ h :: post) None)) (l1 ++ g ++ l2) /\
    text l1 = sconcat (map h_string pre) /\
    ((forall x, In x pre -> ~ raw_start x) -> Yields (TokenizeString U scan (h_string h)) g) /\
    ((exists x, In x pre /\ raw_start x) -> g = [mkToken (h_string h) false false false]).
Proof.
  intros SC F T. apply html_at; auto. apply Forall_forall. intros x Hx Tx. now apply F.
Qed.
