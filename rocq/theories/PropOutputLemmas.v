(** * PropOutputLemmas: reading the output of the command line again (C78). *)

From Verif Require Import Base Utf8 Unicode UnicodeData Token Stream StreamSpec Tokenizer Words Html Filters Ascii Synonyms ContractionsTable Cli
  FilterSpec SynSpec ChainSpec ListSpec CliSpec LineSpec OutputSpec StreamProofs TokenProofs Utf8Proofs AsciiProofs FilterProofs ChainProofs WordsProofs
  TrieProofs SynProofs BuildProofs Sources WordLineProofs PropSynLemmas PropSynLemmas2 PropSynLemmas5 PropLineLemmas.
Local Open Scope string_scope.

Notation la := list_ascii_of_string.
Notation lf := "010"%char.

Lemma la_app a : forall b, la (a ++ b) = (la a ++ la b)%list.
Proof. induction a as [|c a IH]; intros b; [reflexivity|]. cbn. now rewrite IH. Qed.

(** ** Lists of tokens *)

Definition fits (t : token) : Prop := tvalue t <> "" /\ one_line (tvalue t).

Lemma kinds v : v <> "" -> one_line v -> v = LF \/ v = CR ++ LF \/ exists c r, v = String c r /\ c <> lf /\ ~ In lf (la r).
Proof.
  intros N [[->| ->]|H]; [auto|auto|]. right. right. destruct v as [|c r]; [congruence|]. exists c, r. cbn in H. split; [reflexivity|]. split; intros X; apply H; auto.
Qed.

Lemma cut_line a : forall b x y, ~ In lf (la a) -> ~ In lf (la b) -> a ++ String lf x = b ++ String lf y -> a = b /\ x = y.
Proof.
  induction a as [|c a IH]; intros [|d b] x y A B E; cbn in *.
  - now injection E as <-.
  - injection E as <- E. destruct B. auto.
  - injection E as -> E. destruct A. auto.
  - injection E as <- E. destruct (IH b x y) as [<- <-]; auto.
Qed.

Lemma parity n : forall l1 l2, Forall fits l1 -> Forall fits l2 -> (length l1 + length l2 <= n)%nat -> listing true l1 <> String lf (listing true l2).
Proof.
  induction n as [|n IH]; intros l1 l2 F1 F2 L E.
  - destruct l1; [discriminate|cbn in L; lia].
  - destruct l1 as [|t l1]; [discriminate|]. inversion F1 as [|? ? [N O] F1']; subst. cbn [listing] in E.
    destruct (kinds _ N O) as [V|[V|(c & r & V & C & R)]]; rewrite V in E.
    + cbn in E. injection E as E. apply (IH l2 l1); auto. cbn in L. lia.
    + discriminate.
    + cbn in E. injection E as E _. auto.
Qed.

Lemma C78_list_lemma l1 : forall l2, Forall fits l1 -> Forall fits l2 -> listing true l1 = listing true l2 -> map tvalue l1 = map tvalue l2.
Proof.
  induction l1 as [|t1 l1 IH]; intros [|t2 l2] F1 F2 E.
  - reflexivity.
  - cbn in E. destruct (tvalue t2); discriminate.
  - cbn in E. destruct (tvalue t1); discriminate.
  - inversion F1 as [|? ? [N1 O1] F1']; subst. inversion F2 as [|? ? [N2 O2] F2']; subst. cbn [listing map] in *.
    destruct (kinds _ N1 O1) as [V1|[V1|(c1 & r1 & V1 & C1 & R1)]], (kinds _ N2 O2) as [V2|[V2|(c2 & r2 & V2 & C2 & R2)]]; rewrite V1, V2 in *; cbn in E; try discriminate E.
    + injection E as E. f_equal. now apply IH.
    + injection E as E _. congruence.
    + injection E as E. f_equal. now apply IH.
    + injection E as <- E. destruct r2 as [|d r2]; [|injection E as <- _; destruct R2; now left]. cbn in E. injection E as E.
      destruct (parity _ l2 l1 F2' F1' (le_n _)). now symmetry.
    + injection E as E _. congruence.
    + injection E as -> E. destruct r1 as [|d r1]; [|injection E as -> _; destruct R1; now left]. cbn in E. injection E as E.
      destruct (parity _ l1 l2 F1' F2' (le_n _)). exact E.
    + injection E as <- E. destruct (cut_line _ _ _ _ R1 R2 E) as [<- E']. f_equal. now apply IH.
Qed.

Lemma line_feeds_app a b : line_feeds (a ++ b) = (line_feeds a + line_feeds b)%nat.
Proof. unfold line_feeds. rewrite la_app. apply count_occ_app. Qed.

Lemma C78_count_lemma l : Forall fits l -> exists ends, Subseq ends l /\ (forall t, In t l -> line_end (tvalue t) <-> In t ends) /\
  line_feeds (listing true l) = (length l + length ends)%nat.
Proof.
  intros F. set (p := fun t => orb (seqb (tvalue t) LF) (seqb (tvalue t) (CR ++ LF))).
  assert (P : forall t, p t = true <-> line_end (tvalue t)) by (intros t; unfold p, line_end; rewrite Bool.orb_true_iff, !seqb_eq; reflexivity).
  exists (filter p l). split; [apply Subseq_filter|]. split.
  - intros t I. rewrite filter_In, P. tauto.
  - induction F as [|t l [N O] F IH]; [reflexivity|]. cbn [listing length filter]. rewrite line_feeds_app.
    change (line_feeds (String lf (listing true l))) with (S (line_feeds (listing true l))). rewrite IH.
    destruct (p t) eqn:Pt.
    + apply P in Pt as [->| ->]; cbn [length]; change (line_feeds LF) with 1%nat; change (line_feeds (CR ++ LF)) with 1%nat; lia.
    + destruct O as [O|O]; [apply P in O; congruence|]. unfold line_feeds at 1. rewrite (proj1 (count_occ_not_In _ _ _) O). lia.
Qed.

(** ** The pieces of a text *)

Lemma fits_value v : v <> "" -> one_line v -> forall U b t, NewToken U v b = Some t -> fits t.
Proof. intros N O U b t E. destruct (NewToken_value _ _ _ _ E) as (V & _). split; rewrite V; assumption. Qed.

(** Two ways to cut the same list of pieces. *)
Lemma same_cut (l : list string) : forall ps x qs as_ e bs u v, (forall y, In y l -> y <> "") -> l = (ps ++ x :: qs)%list -> l = (as_ ++ e :: bs)%list ->
  sconcat as_ = sconcat ps ++ u -> x = u ++ v -> v <> "" -> x = e.
Proof.
  induction l as [|y l IH]; intros ps x qs as_ e bs u v NE E1 E2 A X V; [destruct ps; discriminate|].
  destruct ps as [|p ps], as_ as [|a as_]; cbn in E1, E2.
  - congruence.
  - injection E1 as <- E1. injection E2 as <- E2. cbn in A. exfalso. apply V.
    assert (L : String.length v = 0%nat); [|destruct v; [reflexivity|discriminate]].
    apply (f_equal String.length) in A. rewrite X in A. rewrite !sapp_length in A. lia.
  - injection E1 as <- E1. cbn in A. exfalso. apply (NE y (or_introl eq_refl)). destruct y; [reflexivity|discriminate].
  - injection E1 as <- E1. injection E2 as <- E2. cbn [sconcat] in A. rewrite sapp_assoc in A. apply sapp_inv_head in A.
    eapply IH; eauto. intros; apply NE; now right.
Qed.

Lemma last_char a : a = "" \/ exists a' c, a = a' ++ String c "".
Proof. induction a as [|c a IH]; [now left|]. right. destruct IH as [->|(a' & d & ->)]; [exists "", c|exists (String c a'), d]; reflexivity. Qed.

Lemma last_inj a : forall b c d, a ++ String c "" = b ++ String d "" -> a = b /\ c = d.
Proof.
  induction a as [|x a IH]; intros [|y b] c d E; cbn in E.
  - injection E as <-. auto.
  - injection E as <- E. destruct b; discriminate.
  - injection E as -> E. destruct a; discriminate.
  - injection E as <- E. destruct (IH _ _ _ E) as [-> ->]. auto.
Qed.

Lemma ends_in_CR a : (exists a', a = a' ++ CR) \/ forall a', a <> a' ++ CR.
Proof.
  destruct (last_char a) as [->|(a' & c & ->)]; [right; intros [|] H; discriminate|].
  destruct (ascii_dec c "013") as [->|N]; [left; exists a'; reflexivity|]. right. intros a2 E. apply last_inj in E as [_ E]. auto.
Qed.

Lemma lf_inside v : In lf (la v) -> exists a b, v = a ++ LF ++ b.
Proof.
  induction v as [|c v IH]; intros I; [destruct I|]. destruct I as [->|I]; [exists "", v; reflexivity|]. destruct (IH I) as (a & b & ->). exists (String c a), b. reflexivity.
Qed.

Lemma piece_one_line sg : seg_ok sg -> breaks_lines sg -> forall s x, In x (sg s) -> one_line x.
Proof.
  intros OK BL s x I. destruct (in_dec ascii_dec lf (la x)) as [L|L]; [|now right]. left. apply lf_inside in L as (a & b & X).
  apply in_split in I as (ps & qs & E). destruct (OK s) as [C NE]. assert (S : s = sconcat ps ++ x ++ sconcat qs).
  { rewrite <- C, E. clear. induction ps as [|p ps IH]; [reflexivity|]. cbn [app sconcat]. now rewrite IH, sapp_assoc. }
  destruct (ends_in_CR (sconcat ps ++ a)) as [(a' & Ea)|N].
  - pose proof (BL a' (CR ++ LF) (b ++ sconcat qs) (or_introl eq_refl)) as E2.
    replace (a' ++ (CR ++ LF) ++ b ++ sconcat qs) with s in E2.
    2:{ rewrite S, X. rewrite <- !sapp_assoc, Ea, !sapp_assoc. reflexivity. }
    right. destruct (last_char a) as [->|(a2 & c & ->)].
    + rewrite sapp_nil_r in Ea. symmetry.
      apply (same_cut (sg s) (sg a') (CR ++ LF) (sg (b ++ sconcat qs)) ps x qs CR LF NE E2 E); [now rewrite (proj1 (OK a'))|reflexivity|discriminate].
    + rewrite <- sapp_assoc in Ea. apply last_inj in Ea as [Ea ->].
      apply (same_cut (sg s) ps x qs (sg a') (CR ++ LF) (sg (b ++ sconcat qs)) a2 (CR ++ LF ++ b) NE E E2); [now rewrite (proj1 (OK a'))|rewrite X, sapp_assoc; reflexivity|discriminate].
  - pose proof (BL (sconcat ps ++ a) LF (b ++ sconcat qs) (or_intror (conj eq_refl N))) as E2.
    replace ((sconcat ps ++ a) ++ LF ++ b ++ sconcat qs) with s in E2 by (rewrite S, X, !sapp_assoc; reflexivity).
    left. apply (same_cut (sg s) ps x qs (sg (sconcat ps ++ a)) LF (sg (b ++ sconcat qs)) a (LF ++ b) NE E E2); [now rewrite (proj1 (OK _))|exact X|discriminate].
Qed.

(** ** Filters *)

Lemma enc_raw_lf r : valid_rune r = true -> In lf (la (enc_raw r)) <-> r = 10%N.
Proof.
  intros V. apply valid_rune_spec in V. split; [|intros ->; now left]. unfold enc_raw. intros I.
  assert (B : forall n, (n < 256)%N -> chr n = lf -> n = 10%N) by (intros n L E; rewrite <- (byte_chr n L), E; reflexivity).
  destruct (N.ltb_spec r 128); [destruct I as [I|[]]; apply B in I; lia|].
  assert (M : forall x, (x mod 64 < 64)%N) by (intros; apply N.mod_lt; discriminate).
  destruct (N.ltb_spec r 2048); [|destruct (N.ltb_spec r 65536)].
  - assert (r / 64 < 32)%N by (apply N.div_lt_upper_bound; lia). pose proof (M r).
    destruct I as [I|[I|[]]]; apply B in I; lia.
  - assert (r / 4096 < 16)%N by (apply N.div_lt_upper_bound; lia). pose proof (M r). pose proof (M (r / 64)%N).
    destruct I as [I|[I|[I|[]]]]; apply B in I; lia.
  - assert (r / 262144 < 5)%N by (apply N.div_lt_upper_bound; lia). pose proof (M r). pose proof (M (r / 64)%N). pose proof (M (r / 4096)%N).
    destruct I as [I|[I|[I|[I|[]]]]]; apply B in I; lia.
Qed.

Lemma runes_lf v : In 10%N (runes v) -> In lf (la v).
Proof.
  induction v as [|r s V R VU IH|c s R VU B IH] using decode_ind; [intros []| |]; rewrite R; intros [E|I].
  - rewrite la_app. apply in_or_app. left. now apply enc_raw_lf.
  - rewrite la_app. apply in_or_app. right. auto.
  - discriminate.
  - right. auto.
Qed.

Lemma encode_lf l : In lf (la (encode l)) -> In 10%N l.
Proof.
  induction l as [|r l IH]; [intros []|]. cbn [encode]. rewrite la_app, encode_rune_fix. intros I. apply in_app_or in I as [I|I]; [|right; auto].
  left. apply enc_raw_lf in I; [|apply fix_rune_valid]. unfold fix_rune in I. destruct (valid_rune r); [exact I|discriminate].
Qed.

Lemma arms_lf : forallb (fun a : list N * list N * bool => forallb (fun x => negb (x =? 10)%N) (snd (fst a))) AsciiTable.fold_arms = true.
Proof. vm_compute. reflexivity. Qed.

Lemma fold_one_line v w b : one_line v -> FoldString v = (w, b) -> one_line w.
Proof.
  intros O E. destruct b; [|rewrite FoldString_spec in E; destruct (existsb flagged (runes v)); congruence].
  destruct O as [[->| ->]|O]; [discriminate E|discriminate E|]. right. intros I. apply O, runes_lf.
  rewrite FoldString_spec in E. destruct (existsb flagged (runes v)); [|discriminate]. injection E as <-. apply encode_lf in I.
  apply in_flat_map in I as (r & R & I). unfold subst_rune in I. destruct (find_arm AsciiTable.fold_arms r) as [[out fl]|] eqn:A; [|destruct I as [<-|[]]; exact R].
  apply find_arm_some in A as (cs & A & _). pose proof arms_lf as T. rewrite forallb_forall in T. specialize (T _ A). cbn in T. rewrite forallb_forall in T.
  specialize (T _ I). discriminate.
Qed.

Section Keep.
Variables (U : unicode) (sg : string -> list string).
Hypothesis OK : seg_ok sg.
Hypothesis BL : breaks_lines sg.
Hypothesis CS : uIsSpace U 44 = false.
Notation scan := (scan_of sg).

Definition keeps_fit (F : Filter) : Prop := forall s l, Yields s l -> Forall fits l -> exists o, Yields (F s) o /\ Forall fits o.

Lemma scan_fine : scanner_ok scan.
Proof. apply scan_of_ok, OK. Qed.

Lemma sub_fits F f : (forall s l, Yields s l -> Yields (F s) (f l)) -> (forall l t, In t (f l) -> In t l) -> keeps_fit F.
Proof. intros T S s l Y Fl. exists (f l). split; [auto|]. rewrite Forall_forall in *. auto. Qed.

Lemma mapper_fits f : (forall t, fits t -> exists t', f t = Some t' /\ fits t') -> (forall t, f t <> None) -> keeps_fit (Mapper [f]).
Proof.
  intros H T s l Y Fl. eexists. split; [apply (proj1 (mapper_transforms [f] ltac:(intros g t [<-|[]]; apply T))), Y|].
  apply Forall_forall. intros t' I. apply in_map_iff in I as (t & <- & I). rewrite Forall_forall in Fl. destruct (H t (Fl _ I)) as (t' & E & Ft).
  unfold force_map. cbn [apply_funcs]. rewrite E. exact Ft.
Qed.

Lemma line_output_keeps F : line_output U scan F -> keeps_fit F.
Proof.
  destruct 1 as [F H| | |table H|stem H H2|ms ic ig D b H H0 H1].
  - destruct (selecting_filter U F H) as (p & T). apply (sub_fits _ _ T). intros l t I. now apply filter_In in I.
  - apply (sub_fits _ _ Distinct_yields). intros l t I. destruct (first_occ_post l) as (S & _). clear -S I.
    induction S; [destruct I| |]; [destruct I as [<-|I]; [now left|right; auto]|right; auto].
  - apply mapper_fits.
    + intros t [N O]. unfold folder. destruct (FoldString (tvalue t)) as [w [|]] eqn:E; [|exists t; split; [reflexivity|split; assumption]].
      destruct (NewToken_cons U w true (FoldString_nonempty _ _ E)) as (t' & T). exists t'. split; [exact T|].
      eapply fits_value; [exact (FoldString_nonempty _ _ E)|exact (fold_one_line _ _ _ O E)|exact T].
    + intros t. destruct (folder_total U t) as (t' & M & _). unfold maps_to in M. cbn in M. congruence.
  - assert (T : forall k v, In (k, v) table -> serr (scan (mkReader v None)) = None) by (intros k v I; apply (H k v I)).
    intros s l Y Fl. eexists. split; [apply (Contractions_yields U scan table scan_fine T _ _ Y)|].
    apply Forall_forall. intros t I. apply in_flat_map in I as (t0 & I0 & I). rewrite Forall_forall in Fl. specialize (Fl _ I0).
    unfold expand_token in I. destruct (lookup_expansion U table (tvalue t0)) as [x|] eqn:L; [|destruct I as [<-|[]]; exact Fl].
    destruct (map (piece_token U) (seg scan x)) as [|y q] eqn:Q; [destruct I as [<-|[]]; exact Fl|].
    rewrite <- Q in I. apply in_map_iff in I as (p & <- & I). pose proof (seg_nonempty scan scan_fine x p I) as Np.
    split; rewrite piece_token_value; [exact Np|]. right. intros Lf.
    assert (exists k, In (k, x) table) as (k & Ik).
    { unfold lookup_expansion in L. destruct (assoc (tvalue t0) table) eqn:A; [injection L as ->; eauto using assoc_In|eauto using assoc_In]. }
    apply (proj2 (H k x Ik)). rewrite <- (seg_concat scan scan_fine x (T k x Ik)). clear -I Lf. induction (seg scan x) as [|z l IH]; [destruct I|].
    cbn [sconcat]. rewrite la_app. apply in_or_app. destruct I as [->|I]; [now left|right; auto].
  - assert (T : forall t, stem_token U stem t <> None).
    { intros t. unfold stem_token. destruct (tpunct t || tspace t)%bool; [discriminate|].
      destruct (seqb (stem (tvalue t) true) (tvalue t)) eqn:Q; [discriminate|].
      destruct (NewToken_cons U (stem (tvalue t) true) true) as (t' & ->); [|discriminate].
      intros C. apply Bool.not_true_iff_false in Q. apply Q, seqb_eq. rewrite C. symmetry. auto. }
    apply mapper_fits; [|exact T]. intros t Ft. destruct (stem_token U stem t) as [t'|] eqn:E; [|destruct (T t E)]. exists t'. split; [reflexivity|].
    unfold stem_token in E. destruct (tpunct t || tspace t)%bool; [congruence|]. cbv zeta in E. destruct (seqb _ _); [congruence|].
    destruct (NewToken_value _ _ _ _ E) as (_ & _ & N). eapply fits_value; [exact N|apply H2, Ft|exact E].
  - intros s l Y Fl. destruct (C38_lemma U scan scan_fine CS _ _ _ _ _ H H0) as (n & _ & R). destruct (R _ _ Y) as (o & Ro & Yo).
    exists o. split; [exact Yo|]. clear Yo R Y. induction Ro as [|t l o Hw R IH|t l o Hw NM R IH|t l k c g o Hw L G R IH]; [constructor| | |].
    + inversion Fl; subst. constructor; auto.
    + inversion Fl; subst. constructor; auto.
    + apply Forall_app. split.
      * destruct G as [(_ & ->)|(m & (V & _ & Lm) & ->)]; [constructor|]. constructor; [|constructor].
        destruct (means_in _ _ _ _ _ _ (proj2 (proj1 L))) as (x & I & _). destruct (NewToken_value _ _ _ _ Lm) as (_ & _ & N).
        eapply fits_value; [exact N|exact (H1 _ _ I)|exact Lm].
      * apply IH. apply Forall_forall. intros x I. rewrite Forall_forall in Fl. apply Fl. rewrite <- (firstn_skipn k (t :: l)). apply in_or_app. now right.
Qed.

Lemma chain_fits fs : Forall (line_output U scan) fs -> keeps_fit (ApplyFilters fs).
Proof.
  induction 1 as [|F fs H _ IH]; intros s l Y Fl; [exists l; auto|]. destruct (line_output_keeps F H s l Y Fl) as (o & Yo & Fo). exact (IH _ _ Yo Fo).
Qed.

Lemma text_fits fs : Forall (line_output U scan) fs -> forall s, exists o, processed U scan fs s o /\ Forall fits o.
Proof.
  intros H s. apply (chain_fits fs H _ (map (piece_token U) (seg scan s))); [apply TokenizeString_yields; [exact scan_fine|reflexivity]|].
  apply Forall_forall. intros t I. apply in_map_iff in I as (x & <- & I). split; rewrite piece_token_value; [exact (seg_nonempty scan scan_fine s x I)|].
  eapply piece_one_line; [exact OK|exact BL|exact I].
Qed.

Lemma C78_text_lemma fs : Forall (line_output U scan) fs -> forall s1 s2, exists o1 o2,
  processed U scan fs s1 o1 /\ processed U scan fs s2 o2 /\ (listing true o1 = listing true o2 <-> map tvalue o1 = map tvalue o2).
Proof.
  intros H s1 s2. destruct (text_fits fs H s1) as (o1 & P1 & F1), (text_fits fs H s2) as (o2 & P2 & F2). exists o1, o2. split; [exact P1|]. split; [exact P2|].
  split; [apply C78_list_lemma; assumption|]. clear. revert o2. induction o1 as [|t1 o1 IH]; intros [|t2 o2] E; try discriminate; [reflexivity|].
  cbn in E. injection E as E1 E2. cbn [listing]. rewrite E1. f_equal. f_equal. now apply IH.
Qed.

Lemma C78_wc_lemma fs : Forall (line_output U scan) fs -> forall s, exists o ends,
  processed U scan fs s o /\ Subseq ends o /\ (forall t, In t o -> line_end (tvalue t) <-> In t ends) /\ line_feeds (listing true o) = (length o + length ends)%nat.
Proof.
  intros H s. destruct (text_fits fs H s) as (o & P & F). destruct (C78_count_lemma o F) as (ends & A). exists o, ends. auto.
Qed.
End Keep.

Definition page1 := mkHP [mkH StartTag Script "<script>"; mkH EndTag Script "</script>"; mkH StartTag (OtherAtom 1) "<br>"; mkH HText AtomZero "a"; mkH StartTag (OtherAtom 1) "<br>"; mkH HText AtomZero "b"] None.
Definition page2 := mkHP [mkH StartTag Script "<script>"; mkH EndTag Script "</script>"; mkH StartTag (OtherAtom 1) "<br>"; mkH HText AtomZero ("a" ++ LF ++ "b")] None.

Lemma C78_refutation : exists p1 p2 o1 o2,
  Yields (Distinct (TokenizeHTML go_unicode words_scan p1)) o1 /\ Yields (Distinct (TokenizeHTML go_unicode words_scan p2)) o2 /\
  listing true o1 = listing true o2 /\ map tvalue o1 <> map tvalue o2.
Proof.
  exists page1, page2. eexists _, _. split; [apply Distinct_yields, html_yields; [exact words_scan_ok|repeat (apply Forall_cons; [intros _; split; [discriminate|reflexivity]|]); apply Forall_nil]|].
  split; [apply Distinct_yields, html_yields; [exact words_scan_ok|repeat (apply Forall_cons; [intros _; split; [discriminate|reflexivity]|]); apply Forall_nil]|]. vm_compute. split; [reflexivity|discriminate].
Qed.

Lemma no_feed v : existsb (Ascii.eqb lf) (la v) = false -> ~ In lf (la v).
Proof. intros E I. apply not_true_iff_false in E. apply E, existsb_exists. exists lf. split; [exact I|apply Ascii.eqb_refl]. Qed.

Lemma contractions_no_feed k v : In (k, v) contraction_mappings -> ~ In lf (la v).
Proof.
  assert (T : forallb (fun kv => negb (existsb (Ascii.eqb lf) (la (snd kv)))) contraction_mappings = true) by (vm_compute; reflexivity).
  rewrite forallb_forall in T. intros I. specialize (T _ I). apply no_feed. now apply negb_true_iff in T.
Qed.

Lemma C78_hypotheses_lemma : uIsSpace go_unicode 44 = false /\ seg_ok word_segments /\ breaks_lines word_segments /\
  exists b, Forall (line_output go_unicode words_scan)
    [Contractions go_unicode words_scan contraction_mappings; Fold go_unicode; SynFilter go_unicode None b; Stemmer go_unicode (fun v _ => v); Lemmas; Distinct].
Proof.
  split; [exact go_comma|]. split; [exact word_segments_ok|]. split; [exact word_segments_break|].
  destruct (concrete_built [("ruby on rails", "ruby-on-rails")]%string true [32%N]) as (D & b & Dd & B). exists b.
  constructor; [apply LO_expand; intros k v I; split; [reflexivity|exact (contractions_no_feed k v I)]|]. constructor; [apply LO_fold|].
  constructor; [|constructor; [apply LO_stem; auto|constructor; [apply LO_select; constructor|constructor; [apply LO_distinct|constructor]]]].
  eapply LO_synonyms; [exact Dd|exact B|]. intros l c I. right. destruct (entry_canonical _ _ _ Dd l c I) as (k & [E|[]]). injection E as _ <-. apply no_feed. reflexivity.
Qed.
