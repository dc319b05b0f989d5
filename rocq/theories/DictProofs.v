(** * DictProofs: the shipped dictionaries, by computation over the tables. *)

From Coq Require Import Permutation.
From Verif Require Import Base Utf8 Unicode UnicodeData Token Stream StreamSpec Tokenizer Words Trie Synonyms FilterSpec SynSpec
  ChainSpec DictSpec StreamProofs Utf8Proofs TokenProofs FilterProofs WordsProofs TrieProofs SynProofs BuildProofs PropSynLemmas
  SoTable NbaTable Dictionaries.

Fixpoint split_at (x : N) (cur l : list N) : list (list N) :=
  match l with
  | [] => [cur]
  | y :: l' => if N.eqb y x then cur :: split_at x [] l' else split_at x (cur ++ [y]) l'
  end.

Section Generic.
Variable U : unicode.
Variable ic : bool.
Variable ig : list N.
Hypothesis SP13 : uIsSpace U 13 = true.
Hypothesis SP10 : uIsSpace U 10 = true.

Definition norm (rs : list N) : list N :=
  filter (fun r => negb (existsb (N.eqb r) ig)) (map (fun r => if ic then uToLower U r else r) rs).

Lemma norm_app a b : norm (a ++ b) = norm a ++ norm b.
Proof. unfold norm. rewrite map_app, filter_app. reflexivity. Qed.

Definition allrunes (l : list token) : list N := flat_map (fun t => runes (tvalue t)) l.

Lemma spelled_norm l : spelled U ic ig l = norm (allrunes l).
Proof.
  induction l as [|t l IH]; [reflexivity|]. unfold spelled, allrunes in *. cbn [flat_map]. rewrite norm_app, IH. reflexivity.
Qed.

Lemma split_at_none x l : forall cur, ~ In x l -> split_at x cur l = [cur ++ l].
Proof.
  induction l as [|y l IH]; intros cur N; cbn [split_at]; [rewrite app_nil_r; reflexivity|].
  destruct (N.eqb_spec y x) as [->|]; [exfalso; apply N; left; reflexivity|].
  rewrite IH by (intros H; apply N; right; exact H). rewrite <- app_assoc. reflexivity.
Qed.

Lemma split_at_sep x a l : forall cur, ~ In x a -> split_at x cur (a ++ x :: l) = (cur ++ a) :: split_at x [] l.
Proof.
  induction a as [|y a IH]; intros cur N; cbn [app split_at].
  - rewrite N.eqb_refl, app_nil_r. reflexivity.
  - destruct (N.eqb_spec y x) as [->|]; [exfalso; apply N; left; reflexivity|].
    rewrite IH by (intros H; apply N; right; exact H). rewrite <- app_assoc. reflexivity.
Qed.

Lemma separated_split l ps : separated is_comma l ps -> (forall t, In t l -> In 44%N (runes (tvalue t)) -> is_comma t) ->
  map allrunes ps = split_at 44 [] (allrunes l).
Proof.
  assert (G : forall a, (forall x, In x a -> ~ is_comma x) -> (forall t, In t a -> In 44%N (runes (tvalue t)) -> is_comma t) ->
    ~ In 44%N (allrunes a)).
  { intros a N C H. unfold allrunes in H. apply in_flat_map in H as (t & It & Ht). apply (N t It), C; assumption. }
  induction 1 as [l N|a s l r N Cs S IH]; intros C; cbn [map].
  - rewrite split_at_none; [reflexivity|]. apply G; auto.
  - unfold allrunes at 3. rewrite flat_map_app. cbn [flat_map]. rewrite Cs. change (runes ",") with [44%N]. cbn [app].
    change (flat_map (fun t => runes (tvalue t)) a) with (allrunes a).
    rewrite split_at_sep by (apply G; auto using in_or_app). cbn [app]. f_equal. apply IH.
    intros t It. apply C, in_or_app. right. right. exact It.
Qed.

(** The entries made from one key. *)
Lemma entries_spelled scan k c l D1 : scanner_ok scan -> cuts_at_commas scan k -> key_tokens U scan k l -> entries_of l c D1 ->
  (forall r, In r (runes k) -> uIsSpace U r = true -> norm [r] = []) ->
  forall l' c', In (l', c') D1 -> c' = c /\ exists seg, In seg (split_at 44 [] (runes k)) /\ spelled U ic ig l' = norm seg.
Proof.
  intros SC [Cr Cc] K (ps & ss & Se & Tr & ->) Sp l' c' I.
  assert (Fi : seg_fine scan k).
  { apply (dictionary_fine U scan SC [(k, c)] (map (fun x => (x, c)) ss ++ []) ) with (c := c); [|left; reflexivity].
    eapply Dict_cons; [exact K| |constructor]. exists ps, ss. auto. }
  pose proof (Yields_inj _ _ _ K (TokenizeString_yields U scan SC k Fi)) as El.
  assert (R : allrunes l = runes k).
  { rewrite El, <- Cr. unfold allrunes, seg. clear. induction (pending (scan (mkReader k None))) as [|x r IH]; [reflexivity|].
    cbn [map flat_map]. rewrite piece_token_value, IH. reflexivity. }
  apply in_map_iff in I as (s & E & Is). injection E as -> <-. split; [reflexivity|].
  assert (P : exists p, In p ps /\ trimmed p l').
  { clear - Tr Is. induction Tr as [|p s ps ss T Tr IH]; [destruct Is|]. destruct Is as [<-|Is]; [eauto with datatypes|].
    destruct (IH Is) as (p' & I & T'). eauto with datatypes. }
  destruct P as (p & Ip & sp & -> & Hs & _). exists (allrunes (sp ++ l')). split.
  - rewrite <- R, <- (separated_split l ps Se).
    + apply (in_map allrunes). exact Ip.
    + intros t It Ht. rewrite El in It. apply in_map_iff in It as (x & <- & Ix). rewrite piece_token_value in Ht.
      unfold is_comma. rewrite piece_token_value. apply Cc; assumption.
  - rewrite spelled_norm. unfold allrunes at 2. rewrite flat_map_app, norm_app.
    replace (norm (flat_map (fun t => runes (tvalue t)) sp)) with (@nil N); [reflexivity|].
    assert (Isp : forall t, In t sp -> In t l).
    { intros t It. assert (G : forall l ps, separated is_comma l ps -> forall p t, In p ps -> In t p -> In t l).
      { clear. induction 1 as [l N|a s l r N Cs S IH]; intros p t Ip It.
        - destruct Ip as [<-|[]]. exact It.
        - apply in_or_app. destruct Ip as [<-|Ip]; [left; exact It|right; right; eauto]. }
      eapply G; [exact Se|exact Ip|]. apply in_or_app. left. exact It. }
    clear Ip. induction sp as [|t sp IH]; [reflexivity|]. cbn [flat_map]. rewrite norm_app, <- IH.
    2: intros; apply Hs; right; assumption. 2: intros; apply Isp; right; assumption.
    rewrite app_nil_r. symmetry.
    assert (It : In t l) by (apply Isp; left; reflexivity).
    assert (Sr : forall r, In r (runes (tvalue t)) -> uIsSpace U r = true).
    { rewrite El in It. apply in_map_iff in It as (x & <- & Ix). rewrite piece_token_value.
      destruct (NewToken_class U x false (piece_token U x) SP13 SP10 (piece_token_ok U x (scan_nonempty _ SC _ _ Ix))) as [_ G].
      apply G, Hs. left. reflexivity. }
    assert (Ir : forall r, In r (runes (tvalue t)) -> In r (runes k)).
    { intros r Hr. rewrite <- R. apply in_flat_map. exists t. auto. }
    clear - Sr Ir Sp. induction (runes (tvalue t)) as [|r rs IH]; [reflexivity|].
    change (r :: rs) with ([r] ++ rs). rewrite norm_app, IH by (intros; auto with datatypes).
    rewrite Sp by auto with datatypes. reflexivity.
Qed.

Definition spellings (ms : list (string * string)) : list (list N * string) :=
  flat_map (fun kc => map (fun sg => (norm sg, snd kc)) (split_at 44 [] (runes (fst kc)))) ms.

Lemma dictionary_spelled scan ms D : scanner_ok scan -> (forall k c, In (k, c) ms -> cuts_at_commas scan k) ->
  (forall k c r, In (k, c) ms -> In r (runes k) -> uIsSpace U r = true -> norm [r] = []) ->
  dictionary_of (key_tokens U scan) ms D -> forall l c, In (l, c) D -> In (spelled U ic ig l, c) (spellings ms).
Proof.
  intros SC C Sp Dd. induction Dd as [|k c ms l D1 D2 A B Dd IH]; intros l' c' I; [destruct I|].
  unfold spellings. cbn [flat_map]. apply in_or_app. apply in_app_or in I. destruct I as [I|I].
  - left. destruct (entries_spelled scan k c l D1 SC) with (l' := l') (c' := c') as (-> & sg & Is & ->); auto.
    + eapply C. left. reflexivity.
    + intros r. eapply Sp. left. reflexivity.
    + cbn [fst snd]. apply in_map_iff. eauto.
  - right. apply IH; [| |exact I].
    + intros k0 c0 H. eapply C. right. exact H.
    + intros k0 c0 r H. eapply Sp. right. exact H.
Qed.

(** The checks done by computation. *)
Fixpoint listN_eqb (a b : list N) : bool :=
  match a, b with
  | [], [] => true
  | x :: a', y :: b' => N.eqb x y && listN_eqb a' b'
  | _, _ => false
  end.

Lemma listN_eqb_refl a : listN_eqb a a = true.
Proof. induction a; cbn; [reflexivity|]. rewrite N.eqb_refl. exact IHa. Qed.

Fixpoint consistent (l : list (list N * string)) : bool :=
  match l with
  | [] => true
  | (p, c) :: r => forallb (fun e => if listN_eqb p (fst e) then seqb c (snd e) else true) r && consistent r
  end.

Lemma consistent_spec l : consistent l = true -> forall p c1 c2, In (p, c1) l -> In (p, c2) l -> c1 = c2.
Proof.
  induction l as [|[q c] l IH]; intros H p c1 c2 I1 I2; [destruct I1|].
  cbn [consistent] in H. apply andb_prop in H as [H1 H2]. rewrite forallb_forall in H1.
  assert (G : forall c', In (q, c') l -> c = c').
  { intros c' I. specialize (H1 _ I). cbn [fst snd] in H1. rewrite listN_eqb_refl in H1. now apply seqb_eq. }
  destruct I1 as [E1|I1], I2 as [E2|I2].
  - congruence.
  - injection E1 as -> ->. auto.
  - injection E2 as -> ->. symmetry. auto.
  - eapply IH; eauto.
Qed.

Definition nonempty (l : list (list N * string)) : bool :=
  forallb (fun e => match fst e with [] => false | _ => negb (seqb (snd e) "") end) l.

Definition spaces_vanish (ms : list (string * string)) : bool :=
  forallb (fun kc => forallb (fun r => if uIsSpace U r then match norm [r] with [] => true | _ => false end else true) (runes (fst kc))) ms.

Lemma spaces_vanish_spec ms : spaces_vanish ms = true ->
  forall k c r, In (k, c) ms -> In r (runes k) -> uIsSpace U r = true -> norm [r] = [].
Proof.
  unfold spaces_vanish. intros H k c r I Ir S. rewrite forallb_forall in H. specialize (H _ I). cbn [fst] in H.
  rewrite forallb_forall in H. specialize (H _ Ir). rewrite S in H. destruct (norm [r]); [reflexivity|discriminate].
Qed.

Definition table_ok (ms : list (string * string)) : bool :=
  let sp := spellings ms in spaces_vanish ms && (nonempty sp && consistent sp).

Lemma table_unambiguous scan ms0 : table_ok ms0 = true -> scanner_ok scan -> (forall k c, In (k, c) ms0 -> cuts_at_commas scan k) ->
  forall ms D, Permutation ms0 ms -> dictionary_of (key_tokens U scan) ms D -> unambiguous U ic ig D.
Proof.
  intros T SC C ms D P Dd. unfold table_ok in T. apply andb_prop in T as [T1 T2]. apply andb_prop in T2 as [T2 T3].
  assert (I : forall l c, In (l, c) D -> In (spelled U ic ig l, c) (spellings ms0)).
  { intros l c H. assert (In (spelled U ic ig l, c) (spellings ms)) as K.
    { eapply dictionary_spelled; eauto.
      - intros k c0 H0. eapply C. eapply Permutation_in; [symmetry; exact P|exact H0].
      - intros k c0 r H0. eapply (spaces_vanish_spec _ T1). eapply Permutation_in; [symmetry; exact P|exact H0]. }
    unfold spellings in *. rewrite in_flat_map in *. destruct K as (x & Ix & K). exists x. split; [|exact K].
    eapply Permutation_in; [symmetry; exact P|exact Ix]. }
  split.
  - intros l1 c1 l2 c2 I1 I2 E. apply I in I1. apply I in I2. rewrite E in I1. exact (consistent_spec _ T3 _ _ _ I1 I2).
  - intros l c I1. apply I in I1. unfold nonempty in T2. rewrite forallb_forall in T2. specialize (T2 _ I1). cbn [fst snd] in T2.
    destruct (spelled U ic ig l); [discriminate|]. split; [discriminate|]. intros ->. discriminate T2.
Qed.
End Generic.

Lemma so_table_ok : table_ok go_unicode true [32; 45; 46; 47]%N so_mappings = true.
Proof. vm_cast_no_check (eq_refl true). Qed.

Lemma nba_table_ok : table_ok go_unicode true [32; 46; 39; 45; 8211]%N nba_mappings = true.
Proof. vm_cast_no_check (eq_refl true). Qed.

Lemma go_space13 : uIsSpace go_unicode 13 = true. Proof. vm_compute. reflexivity. Qed.
Lemma go_space10 : uIsSpace go_unicode 10 = true. Proof. vm_compute. reflexivity. Qed.

Lemma first_bad (scan : oracle) ms : (forall k c, In (k, c) ms -> seg_fine scan k) \/
  exists ms1 (k c : string) ms2 e, ms = ms1 ++ (k, c) :: ms2 /\ (forall k c, In (k, c) ms1 -> seg_fine scan k) /\
    serr (scan (mkReader k None)) = Some e.
Proof.
  induction ms as [|[k c] ms IH]; [left; intros ? ? []|].
  destruct (serr (scan (mkReader k None))) as [e|] eqn:E.
  - right. exists [], k, c, ms, e. split; [reflexivity|]. split; [intros ? ? []|exact E].
  - destruct IH as [IH|(ms1 & k' & c' & ms2 & e & -> & F & B)].
    + left. intros k' c' [H|H]; [injection H as <- <-; exact E|eauto].
    + right. exists ((k, c) :: ms1), k', c', ms2, e. split; [reflexivity|]. split; [|exact B].
      intros k2 c2 [H|H]; [injection H as <- <-; exact E|eauto].
Qed.

(** A build without error has a dictionary. *)
Lemma built_dictionary U scan : scanner_ok scan -> uIsSpace U 44 = false -> forall ms ic ig b,
  built_from U scan ms ic ig b -> exists D, dictionary_of (key_tokens U scan) ms D.
Proof.
  intros SC CS ms ic ig b B. destruct (first_bad scan ms) as [F|(ms1 & k & c & ms2 & e & -> & F & E)].
  - destruct (build_ok U scan SC CS ms ic ig F) as (D & _ & _ & Dd & _). eauto.
  - pose proof (Returns_inj _ _ _ B (build_bad U scan SC CS ms1 k c ms2 e ic ig F E)) as C. discriminate.
Qed.

Section Shipped.
Variable c : config.
Hypothesis OK : table_ok go_unicode (cf_ignoreCase c) (cf_ignoreRunes c) (cf_mappings c) = true.

Lemma shipped_lemma scan : scanner_ok scan ->
  (forall k x, In (k, x) (cf_mappings c) -> cuts_at_commas scan k) ->
  (forall ms D, Permutation (cf_mappings c) ms -> dictionary_of (key_tokens go_unicode scan) ms D ->
     unambiguous go_unicode (cf_ignoreCase c) (cf_ignoreRunes c) D) /\
  (forall ms1 ms2 b1 b2, Permutation (cf_mappings c) ms1 -> Permutation (cf_mappings c) ms2 ->
     built_from go_unicode scan ms1 (cf_ignoreCase c) (cf_ignoreRunes c) b1 ->
     built_from go_unicode scan ms2 (cf_ignoreCase c) (cf_ignoreRunes c) b2 ->
     forall s, Same (SynFilter go_unicode None b1 s) (SynFilter go_unicode None b2 s)).
Proof.
  intros SC C.
  assert (A : forall ms D, Permutation (cf_mappings c) ms -> dictionary_of (key_tokens go_unicode scan) ms D ->
     unambiguous go_unicode (cf_ignoreCase c) (cf_ignoreRunes c) D).
  { intros ms D. eapply table_unambiguous; eauto using go_space13, go_space10. }
  split; [exact A|]. intros ms1 ms2 b1 b2 P1 P2 B1 B2.
  assert (CS : uIsSpace go_unicode 44 = false) by (vm_compute; reflexivity).
  destruct (built_dictionary go_unicode scan SC CS _ _ _ _ B1) as (D1 & Dd1).
  destruct (built_dictionary go_unicode scan SC CS _ _ _ _ B2) as (D2 & Dd2).
  eapply (C36_lemma go_unicode scan SC CS ms1 ms2); eauto.
  - rewrite <- P1. exact P2.
  - apply (A ms1 D1 P1 Dd1).
Qed.
End Shipped.

Definition cutsb (k : string) : bool :=
  listN_eqb (flat_map runes (word_segments k)) (runes k) &&
  forallb (fun x => if existsb (N.eqb 44) (runes x) then seqb x "," else true) (word_segments k).

Lemma listN_eqb_eq a : forall b, listN_eqb a b = true -> a = b.
Proof.
  induction a as [|x a IH]; intros [|y b]; cbn; try discriminate; [reflexivity|].
  intros H. apply andb_prop in H as [H1 H2]. apply N.eqb_eq in H1. subst. f_equal. auto.
Qed.

Lemma cutsb_spec k : cutsb k = true -> cuts_at_commas words_scan k.
Proof.
  unfold cutsb. intros H. apply andb_prop in H as [H1 H2]. split; [apply listN_eqb_eq, H1|].
  intros x I J. rewrite forallb_forall in H2. specialize (H2 x I).
  destruct (existsb (N.eqb 44) (runes x)) eqn:E; [now apply seqb_eq|].
  exfalso. assert (existsb (N.eqb 44) (runes x) = true) by (apply existsb_exists; exists 44%N; auto). congruence.
Qed.

Lemma words_scan_cuts : forallb (fun kc => cutsb (fst kc)) (so_mappings ++ nba_mappings) = true.
Proof. vm_cast_no_check (eq_refl true). Qed.

Lemma words_scan_cuts_so k x : In (k, x) so_mappings -> cuts_at_commas words_scan k.
Proof.
  intros I. apply cutsb_spec. pose proof words_scan_cuts as H. rewrite forallb_forall in H.
  apply (H (k, x)). apply in_or_app. auto.
Qed.
Lemma words_scan_cuts_nba k x : In (k, x) nba_mappings -> cuts_at_commas words_scan k.
Proof.
  intros I. apply cutsb_spec. pose proof words_scan_cuts as H. rewrite forallb_forall in H.
  apply (H (k, x)). apply in_or_app. auto.
Qed.
