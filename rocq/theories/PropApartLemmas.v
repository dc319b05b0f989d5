(** * Proofs about separating tokens (C100) *)

From Coq Require Import Lia Permutation.
From Verif Require Import Base Utf8 Unicode UnicodeData Token Stream StreamSpec Tokenizer Words Trie Synonyms FilterSpec SynSpec ChainSpec ApartSpec
  DictSpec SoTable Dictionaries StreamProofs TokenProofs WordsProofs SynProofs Sources DictProofs PropSynLemmas PropSynLemmas2 PropSynLemmas3 PropSynLemmas5.

Section Apart.
Variable U : unicode.
Variable ic : bool.
Variable ig : list N.
Variable D : dictionary.
Variable n : nat.

Lemma window_app m l x : exists r, window m (l ++ x) = window m l ++ r /\ (r = [] \/ (window m l = l /\ exists k, r = window k x)).
Proof.
  revert m. induction l as [|t l IH]; intros m.
  - cbn [app]. exists (window m x). split; [destruct m; reflexivity|]. right. split; [destruct m; reflexivity|eauto].
  - destruct m as [|m]; [exists []; split; [reflexivity|now left]|]. cbn [app window]. destruct (tpunct t); [exists []; split; [reflexivity|now left]|].
    destruct (tspace t).
    + destruct (IH (S m)) as (r & E & C). exists r. rewrite E. split; [reflexivity|]. destruct C as [->|(Wl & k & ->)]; [now left|right]. rewrite Wl. eauto.
    + destruct (IH m) as (r & E & C). exists r. rewrite E. split; [reflexivity|]. destruct C as [->|(Wl & k & ->)]; [now left|right]. rewrite Wl. eauto.
Qed.

Lemma means_in p c : means U ic ig D p c -> exists l, In (l, c) D /\ spelled U ic ig l = p.
Proof. intros (a & l & b & -> & E & _). exists l. split; [apply in_or_app; right; now left|exact E]. Qed.

Lemma spelled_app a b : spelled U ic ig (a ++ b) = spelled U ic ig a ++ spelled U ic ig b.
Proof. unfold spelled. apply flat_map_app. Qed.

(** A match in a longer text that ends within the first part. *)
Lemma matches_app l r k c : k <= length l -> (matches U ic ig D (l ++ r) k c <-> matches U ic ig D l k c).
Proof.
  intros K. unfold matches. rewrite firstn_app. replace (k - length l) with 0 by lia. cbn [firstn]. rewrite app_nil_r, app_length. split; intros [A B]; (split; [lia|exact B]).
Qed.

Section Word.
Variable w : token.
Hypothesis S : separates U ic ig D w.

Lemma none_over l m b k c : matches U ic ig D (window m (l ++ w :: b)) k c -> k <= length (window m l) /\ matches U ic ig D (window m l) k c.
Proof.
  intros M. destruct S as [P|S'].
  - rewrite window_punct in M by exact P. split; [|exact M]. destruct M as [K _]. lia.
  - destruct (window_app m l (w :: b)) as (r & E & C). rewrite E in M. destruct (Nat.leb k (length (window m l))) eqn:L.
    + apply Nat.leb_le in L. split; [exact L|]. now apply (matches_app _ r).
    + apply Nat.leb_gt in L. exfalso. destruct C as [->|(Wl & j & ->)].
      { rewrite app_nil_r in M. destruct M as [K _]. lia. }
      destruct M as [K Mn]. rewrite app_length in K. destruct (means_in _ _ Mn) as (e & Ie & Ee).
      rewrite firstn_app, spelled_app in Ee.
      assert (X : exists r', window j (w :: b) = w :: r').
      { destruct j as [|j]; [cbn in K; lia|]. cbn [window] in *. destruct (tpunct w); [cbn in K; lia|]. destruct (tspace w); eauto. }
      destruct X as (r' & X). rewrite X in Ee. replace (k - length (window m l)) with (Datatypes.S (k - length (window m l) - 1)) in Ee by lia.
      cbn [firstn] in Ee. unfold spelled at 2 in Ee. cbn [flat_map] in Ee. exact (S' _ _ _ _ Ie Ee).
Qed.

Lemma longest_over l b k c : longest U ic ig D (window n l) k c -> longest U ic ig D (window n (l ++ w :: b)) k c.
Proof.
  intros [M L]. destruct (window_app n l (w :: b)) as (r & E & _). pose proof M as [K _].
  split.
  - rewrite E. apply matches_app; [lia|exact M].
  - intros k' c' M' N. destruct (none_over _ _ _ _ _ M') as [K' M'']. specialize (L _ _ M'' N). rewrite E, !firstn_app.
    replace (k' - length (window n l)) with 0 by lia. replace (k - length (window n l)) with 0 by lia. cbn [firstn]. rewrite !app_nil_r. exact L.
Qed.

Lemma rewrites_cut a oa : rewrites U ic ig D n a oa -> forall b ob, rewrites U ic ig D n b ob -> rewrites U ic ig D n (a ++ w :: b) (oa ++ w :: ob).
Proof.
  induction 1 as [|t l o Hw R IH|t l o Hw NM R IH|t l k c g o Hw L G R IH]; intros b ob Rb.
  - cbn [app]. destruct (tpunct w || tspace w) eqn:Q.
    + apply RW_pass; [|exact Rb]. intros [A B]. rewrite A, B in Q. discriminate.
    + apply orb_false_iff in Q as [Q1 Q2]. apply RW_keep; [split; assumption| |exact Rb].
      intros k c M. destruct (none_over [] n b k c M) as [K [K' _]]. cbn in K. destruct n; cbn in K; lia.
  - cbn [app]. apply RW_pass; auto.
  - cbn [app]. apply RW_keep; auto. intros k c M. change (t :: l ++ w :: b) with ((t :: l) ++ w :: b) in M. destruct (none_over _ _ _ _ _ M) as [_ M']. exact (NM _ _ M').
  - rewrite <- app_assoc. pose proof (longest_length U _ _ _ _ _ _ _ L) as K.
    assert (E : skipn k ((t :: l) ++ w :: b) = skipn k (t :: l) ++ w :: b).
    { rewrite skipn_app. replace (k - length (t :: l)) with 0 by lia. reflexivity. }
    change ((t :: l) ++ w :: b) with (t :: (l ++ w :: b)) in *. eapply RW_replace; [exact Hw| |exact G|].
    + apply (longest_over (t :: l)). exact L.
    + rewrite E. apply IH; auto.
Qed.
End Word.

(** A blank at the end. *)
Lemma blank_over l x m k c : blank U ic ig x -> window m l <> [] -> matches U ic ig D (window m (l ++ [x])) k c ->
  exists k', k' <= k <= Datatypes.S k' /\ matches U ic ig D (window m l) k' c /\
    spelled U ic ig (firstn k (window m (l ++ [x]))) = spelled U ic ig (firstn k' (window m l)).
Proof.
  intros (Sx & Px & Lx) Ne M. destruct (window_app m l [x]) as (r & E & C). rewrite E in *. destruct (Nat.leb k (length (window m l))) eqn:L.
  - apply Nat.leb_le in L. exists k. split; [lia|]. split; [now apply (matches_app _ r)|].
    rewrite firstn_app. replace (k - length (window m l)) with 0 by lia. cbn [firstn]. now rewrite app_nil_r.
  - apply Nat.leb_gt in L. destruct C as [->|(Wl & j & ->)].
    { rewrite app_nil_r in M. destruct M as [K _]. lia. }
    destruct M as [K Mn]. rewrite app_length in K.
    assert (X : window j [x] = [x]). { destruct j as [|j]; [cbn in K; lia|]. cbn [window]. now rewrite Px, Sx. }
    rewrite X in *. cbn [length] in K.
    assert (F : spelled U ic ig (firstn k (window m l ++ [x])) = spelled U ic ig (firstn (length (window m l)) (window m l))).
    { rewrite firstn_app, !firstn_all2 by (cbn [length]; lia). rewrite spelled_app. unfold spelled at 2. cbn [flat_map]. now rewrite Lx, !app_nil_r. }
    exists (length (window m l)). split; [lia|]. split; [|exact F]. rewrite F in Mn. split; [|exact Mn].
    destruct (window m l); [congruence|cbn [length]; lia].
Qed.

Lemma word_window t l : word t -> 1 <= n -> window n (t :: l) <> [].
Proof. intros [P Sp] N. destruct n; [lia|]. cbn [window]. rewrite P, Sp. discriminate. Qed.

Lemma rewrites_blank x a oa : 1 <= n -> blank U ic ig x -> rewrites U ic ig D n a oa -> rewrites U ic ig D n (a ++ [x]) (oa ++ [x]).
Proof.
  intros N1 B. induction 1 as [|t l o Hw R IH|t l o Hw NM R IH|t l k c g o Hw L G R IH].
  - cbn [app]. apply RW_pass; [|constructor]. intros [_ Q]. destruct B as (Sx & _). congruence.
  - cbn [app]. apply RW_pass; auto.
  - cbn [app]. apply RW_keep; auto. intros k c M. change (t :: l ++ [x]) with ((t :: l) ++ [x]) in M.
    destruct (blank_over _ _ _ _ _ B (word_window t l Hw N1) M) as (k' & _ & M' & _). exact (NM _ _ M').
  - rewrite <- app_assoc. pose proof (longest_length U _ _ _ _ _ _ _ L) as K.
    assert (E : skipn k ((t :: l) ++ [x]) = skipn k (t :: l) ++ [x]).
    { rewrite skipn_app. replace (k - length (t :: l)) with 0 by lia. reflexivity. }
    change ((t :: l) ++ [x]) with (t :: (l ++ [x])) in *. eapply RW_replace; [exact Hw| |exact G|].
    + change (t :: l ++ [x]) with ((t :: l) ++ [x]). destruct L as [M Lo]. pose proof M as [Kw _].
      destruct (window_app n (t :: l) [x]) as (r & Er & _).
      assert (Fk : firstn k (window n ((t :: l) ++ [x])) = firstn k (window n (t :: l))).
      { rewrite Er, firstn_app. replace (k - length (window n (t :: l))) with 0 by lia. cbn [firstn]. apply app_nil_r. }
      split; [rewrite Er; apply (proj2 (matches_app (window n (t :: l)) r k c (proj2 Kw))); exact M|].
      intros k' c' M' Nk. rewrite Fk. destruct (blank_over _ _ _ _ _ B (word_window t l Hw N1) M') as (j & J & Mj & ->).
      destruct (Nat.eq_dec j k) as [->|Nj]; [right; split; [reflexivity|lia]|].
      destruct (Lo _ _ Mj Nj) as [A|[A1 A2]]; [now left|right; split; [exact A1|lia]].
    + rewrite E. exact IH.
Qed.

Lemma rewrites_front x a oa : blank U ic ig x -> rewrites U ic ig D n a oa -> rewrites U ic ig D n (x :: a) (x :: oa).
Proof. intros (Sx & _) R. apply RW_pass; [|exact R]. intros [_ Q]. congruence. Qed.

Lemma rewrites_blanks xs ys a oa : 1 <= n -> Forall (blank U ic ig) xs -> Forall (blank U ic ig) ys -> rewrites U ic ig D n a oa ->
  rewrites U ic ig D n (xs ++ a ++ ys) (xs ++ oa ++ ys).
Proof.
  intros N1 Bx By R. induction Bx as [|x xs B _ IH]; [|cbn [app]; now apply rewrites_front].
  cbn [app]. induction ys as [|y ys IH] using rev_ind; [now rewrite !app_nil_r|].
  apply Forall_app in By as [By B1]. inversion B1; subst. rewrite !app_assoc. apply rewrites_blank; auto.
Qed.

Lemma rewrites_passages ws : Forall (separates U ic ig D) ws -> forall ps os, length ps = S (length ws) -> Forall2 (rewrites U ic ig D n) ps os ->
  rewrites U ic ig D n (passages ps ws) (passages os ws).
Proof.
  induction 1 as [|w ws S _ IH]; intros ps os L F.
  - destruct F as [|p o ps os R F]; [discriminate|]. destruct ps; [|discriminate]. exact R.
  - destruct F as [|p o ps os R F]; [discriminate|]. cbn [passages]. apply rewrites_cut; auto.
Qed.
End Apart.

Section C100.
Variable U : unicode.
Variable scan : oracle.
Hypothesis SC : scanner_ok scan.
Hypothesis CS : uIsSpace U 44 = false.
Variables (ms : list (string * string)) (ic : bool) (ig : list N) (D : dictionary) (b : built).
Hypothesis Dd : dictionary_of (key_tokens U scan) ms D.
Hypothesis B : built_from U scan ms ic ig b.

Notation F := (SynFilter U None b).

Lemma filter_rewrites : exists n, 1 <= n /\ forall s l, Yields s l -> forall o, Yields (F s) o <-> rewrites U ic ig D n l o.
Proof.
  destruct (C38_lemma U scan SC CS ms ic ig D b Dd B) as (n & W & H). exists n. split; [apply W|]. intros s l Y o.
  destruct (H s l Y) as (o' & R & Y'). split.
  - intros Yo. now rewrite (Yields_inj _ _ _ Yo Y').
  - intros Ro. now rewrite (C38_functional _ _ _ _ _ _ _ _ Ro R).
Qed.

Lemma C100_lemma ws : Forall (separates U ic ig D) ws -> forall ss ps os s, length ps = S (length ws) ->
  Forall2 Yields ss ps -> Forall2 (fun s => Yields (F s)) ss os -> Yields s (passages ps ws) -> Yields (F s) (passages os ws).
Proof.
  intros Sw ss ps os s L Fp Fo Y. destruct filter_rewrites as (n & _ & H). apply (H _ _ Y). apply rewrites_passages; auto.
  clear Y L Sw. revert os Fo. induction Fp as [|s1 p ss ps Y _ IH]; intros os Fo; inversion Fo; subst; constructor; auto. now apply (H s1).
Qed.

Lemma C100_blanks_lemma xs ys : Forall (blank U ic ig) xs -> Forall (blank U ic ig) ys -> forall s1 l o s2, Yields s1 l -> Yields (F s1) o ->
  Yields s2 (xs ++ l ++ ys) -> Yields (F s2) (xs ++ o ++ ys).
Proof.
  intros Bx By s1 l o s2 Y1 Yo Y2. destruct filter_rewrites as (n & N & H). apply (H _ _ Y2). apply rewrites_blanks; auto. now apply (H s1).
Qed.

Lemma C100_within l m : (forall s, Yields s l -> Yields (F s) [m]) ->
  forall v w xs ys before after oa ob s, separates U ic ig D v -> separates U ic ig D w -> Forall (blank U ic ig) xs -> Forall (blank U ic ig) ys ->
  Yields (F (source before None)) oa -> Yields (F (source after None)) ob ->
  Yields s (before ++ v :: xs ++ l ++ ys ++ w :: after) -> Yields (F s) (oa ++ v :: xs ++ m :: ys ++ w :: ob).
Proof.
  intros M v w xs ys before after oa ob s Sv Sw Bx By Ya Yb Y.
  assert (E : forall (p q r : list token), p ++ v :: xs ++ q ++ ys ++ w :: r = passages [p; xs ++ q ++ ys; r] [v; w]).
  { intros. cbn [passages]. now rewrite <- !app_assoc. }
  rewrite E in Y. change (m :: ys ++ w :: ob) with ([m] ++ ys ++ w :: ob). rewrite E.
  apply (C100_lemma [v; w] ltac:(auto) [source before None; source (xs ++ l ++ ys) None; source after None] [before; xs ++ l ++ ys; after] [oa; xs ++ [m] ++ ys; ob] s eq_refl); auto.
  - repeat constructor; apply source_yields.
  - constructor; [exact Ya|]. constructor; [|constructor; [exact Yb|constructor]].
    apply (C100_blanks_lemma xs ys Bx By (source l None) l); [apply source_yields|apply M, source_yields|apply source_yields].
Qed.
End C100.

Section Shipped.
Variables (ms0 : list (string * string)) (ig : list N) (missed : list string).
Hypothesis OK : table_ok go_unicode true ig ms0 = true.
Hypothesis CC : forall k x, In (k, x) ms0 -> cuts_at_commas words_scan k.
Hypothesis AB : all_but ig missed ms0 = true.

Lemma C100_shipped_lemma : forall ms D b, Permutation ms0 ms -> dictionary_of (key_tokens go_unicode words_scan) ms D ->
  built_from go_unicode words_scan ms true ig b ->
  forall l c, In (l, c) D -> ~ In (text l) missed -> exists m, lemma_of go_unicode c m /\
  forall v w xs ys before after s, separates go_unicode true ig D v -> separates go_unicode true ig D w ->
  Forall (blank go_unicode true ig) xs -> Forall (blank go_unicode true ig) ys ->
  Yields s (before ++ v :: xs ++ l ++ ys ++ w :: after) ->
  exists oa ob, Yields (SynFilter go_unicode None b (source before None)) oa /\ Yields (SynFilter go_unicode None b (source after None)) ob /\
    Yields (SynFilter go_unicode None b s) (oa ++ v :: xs ++ m :: ys ++ w :: ob).
Proof.
  intros ms D b P Dd B l c I N.
  pose proof (C64_shipped_lemma ms0 ig missed OK CC AB ms D b P Dd B l c (source l None) I (source_yields l)) as C.
  destruct (proj2 C N) as (m & Lm & Ym). exists m. split; [exact Lm|].
  intros v w xs ys before after s Sv Sw Bx By Y.
  destruct (C38_lemma go_unicode words_scan words_scan_ok go_comma _ _ _ _ _ Dd B) as (n & _ & H).
  destruct (H _ _ (source_yields before)) as (oa & _ & Ya). destruct (H _ _ (source_yields after)) as (ob & _ & Yb). exists oa, ob. split; [exact Ya|]. split; [exact Yb|].
  eapply (C100_within go_unicode words_scan words_scan_ok go_comma ms _ _ D b Dd B l m); eauto.
  intros s' Y'. destruct (H _ _ (source_yields l)) as (o & R & Yo), (H _ _ Y') as (o' & R' & Yo').
  rewrite <- (C38_functional _ _ _ _ _ _ _ _ R R') in Yo'. rewrite (Yields_inj _ _ _ Ym Yo). exact Yo'.
Qed.
End Shipped.

(** Whether [q] occurs in [p]. *)
Fixpoint occurs (q p : list N) : bool := prefixb q p || match p with [] => false | _ :: r => occurs q r end.

Lemma prefixb_app q v : prefixb q (q ++ v) = true.
Proof. induction q as [|x q IH]; [reflexivity|]. cbn. now rewrite N.eqb_refl. Qed.

Lemma occurs_app u q v : occurs q (u ++ q ++ v) = true.
Proof.
  induction u as [|x u IH]; cbn [app].
  - destruct (q ++ v) eqn:E; cbn [occurs]; rewrite <- E, prefixb_app; reflexivity.
  - cbn [occurs]. rewrite IH. apply orb_true_r.
Qed.

Definition apart (ms : list (string * string)) (ig : list N) (w : token) : bool :=
  negb (existsb (fun lc => occurs (letters go_unicode true ig (tvalue w)) (spelled go_unicode true ig (fst lc))) (entries ms)).

Lemma apart_separates ms D ig w : dictionary_of (key_tokens go_unicode words_scan) ms D -> apart ms ig w = true -> separates go_unicode true ig D w.
Proof.
  intros Dd A. right. intros l c u v I E. rewrite (dictionary_entries _ _ Dd) in I. unfold apart in A. apply negb_true_iff in A.
  assert (T : existsb (fun lc => occurs (letters go_unicode true ig (tvalue w)) (spelled go_unicode true ig (fst lc))) (entries ms) = true).
  { apply existsb_exists. exists (l, c). split; [exact I|]. cbn [fst]. rewrite E. apply occurs_app. }
  congruence.
Qed.

Lemma Tags_apart : apart so_mappings [32; 45; 46; 47]%N (tok "Please") && apart so_mappings [32; 45; 46; 47]%N (tok "thanks") = true.
Proof. vm_cast_no_check (eq_refl true). Qed.

Section Cut.
Variables (ms : list (string * string)) (ic : bool) (ig : list N) (before : list token) (w : token) (after : list token) (oa ob o : list token).
Hypothesis E1 : run ms ic ig [w] = [w].
Hypothesis E2 : run ms ic ig before = oa.
Hypothesis E3 : run ms ic ig after = ob.
Hypothesis E4 : run ms ic ig (before ++ w :: after) = o.

Lemma cut_yields b : built_from go_unicode words_scan ms ic ig b ->
    Yields (SynFilter go_unicode None b (source [w] None)) [w] /\
    Yields (SynFilter go_unicode None b (source before None)) oa /\
    Yields (SynFilter go_unicode None b (source after None)) ob /\
    Yields (SynFilter go_unicode None b (source (before ++ w :: after) None)) o.
Proof.
  intros B. rewrite <- E1 at 2. rewrite <- E2, <- E3, <- E4. repeat split; (apply run_yields; [exact B|apply source_yields]).
Qed.
End Cut.

Definition space : token := mkToken " " false true false.

(** "Ruby on Rails", cut at "on". *)
Lemma Tags_on : run so_mappings true [32; 45; 46; 47]%N [tok "on"%string] = [tok "on"%string].
Proof. vm_cast_no_check (eq_refl [tok "on"%string]). Qed.
Lemma Tags_ruby : run so_mappings true [32; 45; 46; 47]%N [tok "Ruby"%string; space] = [lem "ruby"%string; space].
Proof. vm_cast_no_check (eq_refl [lem "ruby"%string; space]). Qed.
Lemma Tags_rails : run so_mappings true [32; 45; 46; 47]%N [space; tok "Rails"%string] = [space; lem "ruby-on-rails"%string].
Proof. vm_cast_no_check (eq_refl [space; lem "ruby-on-rails"%string]). Qed.
Lemma Tags_ruby_on_rails : run so_mappings true [32; 45; 46; 47]%N ([tok "Ruby"%string; space] ++ tok "on"%string :: [space; tok "Rails"%string]) = [lem "ruby-on-rails"%string].
Proof. vm_cast_no_check (eq_refl [lem "ruby-on-rails"%string]). Qed.

Lemma Tags_lists_rails : existsb (fun lc => seqb (text (fst lc)) "ruby on rails") (entries so_mappings) = true.
Proof. vm_cast_no_check (eq_refl true). Qed.

Lemma listed ms0 v (missed : list string) : existsb (fun lc => seqb (text (fst lc)) v) (entries ms0) = true -> ~ In v missed ->
  forall D, dictionary_of (key_tokens go_unicode words_scan) ms0 D -> exists l c, In (l, c) D /\ text l = v /\ ~ In v missed.
Proof.
  intros X N D Dd. rewrite (dictionary_entries _ _ Dd). apply existsb_exists in X as ((l & c) & I & E). apply seqb_eq in E. exists l, c. now split.
Qed.

Lemma not_missed : ~ In "ruby on rails"%string Tags_unrecognised.
Proof. cbn. intuition discriminate. Qed.

Lemma C100_refutation b : let before := [tok "Ruby"; space]%string in let after := [space; tok "Rails"]%string in
  Yields (SynFilter go_unicode None b (source [tok "on"%string] None)) [tok "on"%string] /\
  Yields (SynFilter go_unicode None b (source before None)) [lem "ruby"%string; space] /\
  Yields (SynFilter go_unicode None b (source after None)) [space; lem "ruby-on-rails"%string] /\
  Yields (SynFilter go_unicode None b (source (before ++ tok "on"%string :: after) None)) [lem "ruby-on-rails"%string] ->
  exists oa ob o,
  Yields (SynFilter go_unicode None b (source [tok "on"%string] None)) [tok "on"%string] /\
  Yields (SynFilter go_unicode None b (source before None)) oa /\
  Yields (SynFilter go_unicode None b (source after None)) ob /\
  Yields (SynFilter go_unicode None b (source (before ++ tok "on"%string :: after) None)) o /\ o <> oa ++ tok "on"%string :: ob.
Proof. intros before after (A & B & C & E). eexists _, _, _. repeat (split; [eassumption|]). discriminate. Qed.
