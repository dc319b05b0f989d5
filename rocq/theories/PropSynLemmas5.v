(** * Lemmas behind C64 and C65: the shipped dictionaries, by computation over the tables. *)

From Coq Require Import Permutation.
From Verif Require Import Base Utf8 Unicode UnicodeData Token Stream StreamSpec Tokenizer Words Trie Synonyms FilterSpec SynSpec ChainSpec
  DictSpec Dictionaries NbaTable SoTable StreamProofs TokenProofs FilterProofs WordsProofs TrieProofs SynProofs BuildProofs Sources PropSynLemmas PropSynLemmas2 DictProofs PropSynLemmas4.

(** ** The replacement as a program over any trie for the dictionary *)

Section Run.
Variable U : unicode.
Variable ic : bool.
Variable ig : list N.

Fixpoint rw (gas : nat) (tr : trie) (n : nat) (l : list token) : list token :=
  match gas, l with
  | S gas, t :: r =>
    if nonword t then t :: rw gas tr n r
    else match SearchCanonical U tr (window n l) with
         | (true, c, k) => (match NewToken U c true with Some m => [m] | None => [] end) ++ rw gas tr n (skipn k l)
         | (false, _, _) => t :: rw gas tr n r
         end
  | _, _ => []
  end.

Lemma canonical_made c : canonical_token U c (match NewToken U c true with Some m => [m] | None => [] end).
Proof.
  destruct (NewToken U c true) as [m|] eqn:E.
  - right. exists m. split; [|reflexivity]. destruct (NewToken_value _ _ _ _ E) as (V & L & _). split; [exact V|]. split; [exact L|exact E].
  - left. split; [|reflexivity]. destruct c as [|a c]; [reflexivity|]. exfalso. rewrite NewToken_uncached in E. unfold new_token_uncached in E.
    cbn [String.length Nat.eqb] in E. destruct (seqb _ crlf); discriminate.
Qed.

Lemma rw_rewrites D n tr : repr U ic ig tr D -> forall gas l, length l <= gas -> rewrites U ic ig D n l (rw gas tr n l).
Proof.
  intros R gas. induction gas as [|gas IH]; intros l G; [destruct l; [constructor|cbn in G; lia]|].
  destruct l as [|t r]; [constructor|]. cbn [rw]. cbn [length] in G.
  destruct (nonword t) eqn:W; [apply RW_pass; [now apply nonword_spec|apply IH; lia]|]. apply word_spec in W.
  pose proof (SearchCanonical_spec U ic ig tr D (window n (t :: r)) R) as F.
  destruct (SearchCanonical U tr (window n (t :: r))) as [[[|] c] k]; cbn [finds] in F.
  - eapply RW_replace; [exact W|exact F|apply canonical_made|]. apply IH. rewrite skipn_length. cbn [length].
    destruct F as [[K _] _]. lia.
  - apply RW_keep; [exact W|apply F|apply IH; lia].
Qed.
End Run.

Fixpoint widths (D : dictionary) : nat := match D with [] => 1 | (l, _) :: D => Nat.max (words_in l) (widths D) end.

Lemma widths_max D : 1 <= widths D /\ (forall l c, In (l, c) D -> words_in l <= widths D) /\ (widths D = 1 \/ exists l c, In (l, c) D /\ words_in l = widths D).
Proof.
  induction D as [|[l c] D (A & B & C)]; cbn [widths]; [split; [lia|]; split; [intros ? ? []|left; reflexivity]|].
  split; [lia|]. split.
  - intros l' c' [E|I]; [injection E as -> ->; lia|specialize (B _ _ I); lia].
  - destruct (Nat.max_spec (words_in l) (widths D)) as [[H ->]|[H ->]].
    + destruct C as [C|(l' & c' & I & C)]; [left; exact C|right; exists l', c'; split; [right; exact I|exact C]].
    + right. exists l, c. split; [left; reflexivity|reflexivity].
Qed.

Lemma widest_widths D n : widest D n -> n = widths D.
Proof.
  intros (A & B & C). destruct (widths_max D) as (A' & B' & C').
  destruct C as [C|(l & c & I & C)], C' as [C'|(l' & c' & I' & C')].
  - congruence.
  - specialize (B _ _ I'). lia.
  - specialize (B' _ _ I). lia.
  - specialize (B _ _ I'). specialize (B' _ _ I). lia.
Qed.

(** ** The dictionary of a table, cut by the word segmentation of the model *)

Definition syns (k : string) : list (list token) := pieces_of [] true (map (piece_token go_unicode) (seg words_scan k)).

Definition entries (ms : list (string * string)) : dictionary :=
  flat_map (fun kc => map (fun l => (l, snd kc)) (syns (fst kc))) ms.

Lemma syns_entries k c : key_tokens go_unicode words_scan k (map (piece_token go_unicode) (seg words_scan k)) /\
  entries_of (map (piece_token go_unicode) (seg words_scan k)) c (map (fun l => (l, c)) (syns k)).
Proof.
  split; [apply TokenizeString_yields; [exact words_scan_ok|reflexivity]|].
  set (l := map (piece_token go_unicode) (seg words_scan k)).
  destruct (pieces_separated l [] [] true) as (pieces & A & B); try (intros ? []); auto; try (intros; discriminate).
  { intros t Ht C. apply (comma_not_space go_unicode go_comma); [exact C|]. apply in_map_iff in Ht. destruct Ht as (v & <- & _). eauto. }
  exists pieces, (pieces_of [] true l). auto.
Qed.

Lemma entries_dictionary ms : dictionary_of (key_tokens go_unicode words_scan) ms (entries ms).
Proof.
  induction ms as [|[k c] ms IH]; [constructor|]. unfold entries. cbn [flat_map fst snd].
  destruct (syns_entries k c) as [A B]. exact (Dict_cons _ _ _ _ _ _ _ A B IH).
Qed.

Lemma dictionary_entries ms D : dictionary_of (key_tokens go_unicode words_scan) ms D -> D = entries ms.
Proof. intros H. eapply dictionary_of_inj; [|exact H|apply entries_dictionary]. intros k l1 l2. apply Yields_inj. Qed.

(** What the filter of a table makes of a list of tokens. *)
Definition run (ms : list (string * string)) (ic : bool) (ig : list N) (l : list token) : list token :=
  let D := entries ms in rw go_unicode (length l) (addall go_unicode (trie_New ic ig) D) (widths D) l.

Lemma run_yields ms ic ig b : built_from go_unicode words_scan ms ic ig b ->
  forall s l, Yields s l -> Yields (SynFilter go_unicode None b s) (run ms ic ig l).
Proof.
  intros B s l Y. destruct (C38_lemma go_unicode words_scan words_scan_ok go_comma _ _ _ _ _ (entries_dictionary ms) B) as (n & W & H).
  destruct (H _ _ Y) as (o & R & Yo). rewrite (widest_widths _ _ W) in R. unfold run.
  rewrite <- (rewrites_inj go_unicode ic ig (entries ms) (widths (entries ms)) (S (length l)) _ _ _ (le_n _) R); [exact Yo|].
  apply rw_rewrites; [|lia]. apply (repr_addall go_unicode ic ig (entries ms) _ [] (repr_New go_unicode ic ig)).
Qed.

(** ** C64 *)

Definition recognisable (ig : list N) (l : list token) : bool :=
  forallb (fun t => negb (tpunct t)) l &&
  match rev l with [] => false | x :: _ => match letters go_unicode true ig (tvalue x) with [] => false | _ => true end end.

Definition spaceless (ig : list N) (l : list token) : bool :=
  forallb (fun t => if tspace t then match letters go_unicode true ig (tvalue t) with [] => true | _ => false end else true) l.

Definition all_but (ig : list N) (missed : list string) (ms : list (string * string)) : bool :=
  forallb (fun kc => forallb (fun l => spaceless ig l && Bool.eqb (recognisable ig l) (negb (smem (text l) missed))) (syns (fst kc))) ms.

Lemma recognisable_spec ig l : recognisable ig l = true <->
  (forall t, In t l -> tpunct t = false) /\ exists l0 x, l = l0 ++ [x] /\ letters go_unicode true ig (tvalue x) <> [].
Proof.
  unfold recognisable. rewrite andb_true_iff, forallb_forall. split; intros [A B]; split.
  - intros t I. specialize (A t I). now destruct (tpunct t).
  - destruct (rev l) as [|x r] eqn:E; [discriminate|]. exists (rev r), x. split.
    + rewrite <- (rev_involutive l), E. reflexivity.
    + destruct (letters go_unicode true ig (tvalue x)); [discriminate|discriminate].
  - intros t I. now rewrite (A t I).
  - destruct B as (l0 & x & -> & N). rewrite rev_app_distr. cbn [rev app]. destruct (letters go_unicode true ig (tvalue x)); [congruence|reflexivity].
Qed.

Section Shipped64.
Variables (ms0 : list (string * string)) (ig : list N) (missed : list string).
Hypothesis OK : table_ok go_unicode true ig ms0 = true.
Hypothesis CC : forall k x, In (k, x) ms0 -> cuts_at_commas words_scan k.
Hypothesis AB : all_but ig missed ms0 = true.

Lemma C64_shipped_lemma : forall ms D b, Permutation ms0 ms -> dictionary_of (key_tokens go_unicode words_scan) ms D ->
  built_from go_unicode words_scan ms true ig b ->
  forall l c s, In (l, c) D -> Yields s l ->
  (exists m, lemma_of go_unicode c m /\ Yields (SynFilter go_unicode None b s) [m]) <-> ~ In (text l) missed.
Proof.
  intros ms D b P Dd B l c s I Y.
  assert (UN : unambiguous go_unicode true ig D) by (eapply table_unambiguous; eauto using go_space13, go_space10, words_scan_ok).
  pose proof I as I0. rewrite (dictionary_entries _ _ Dd) in I. apply in_flat_map in I as ([k c'] & Ik & I). cbn [fst snd] in I.
  apply in_map_iff in I as (l' & E & I). injection E as -> ->.
  apply (Permutation_in _ (Permutation_sym P)) in Ik.
  unfold all_but in AB. rewrite forallb_forall in AB. specialize (AB _ Ik). cbn [fst] in AB. rewrite forallb_forall in AB.
  specialize (AB _ I). apply andb_prop in AB as [S R]. apply Bool.eqb_prop in R.
  rewrite (C64_lemma go_unicode words_scan words_scan_ok go_comma ms true ig D b Dd B UN l c s I0), <- recognisable_spec, R; [|  |exact Y].
  - rewrite negb_true_iff. destruct (smem (text l) missed) eqn:M; split; try congruence.
    + intros N. exfalso. apply N. now apply smem_In.
    + intros _ J. apply smem_In in J. congruence.
  - intros t It St. unfold spaceless in S. rewrite forallb_forall in S. specialize (S t It). rewrite St in S.
    destruct (letters go_unicode true ig (tvalue t)); [reflexivity|discriminate].
Qed.
End Shipped64.

Lemma Tags_all_but : all_but [32; 45; 46; 47]%N Tags_unrecognised so_mappings = true.
Proof. vm_cast_no_check (eq_refl true). Qed.

Lemma CurrentPlayers_all_but : all_but [32; 46; 39; 45; 8211]%N CurrentPlayers_unrecognised nba_mappings = true.
Proof. vm_cast_no_check (eq_refl true). Qed.

(** ** C65 *)

Fixpoint prefixb (q p : list N) : bool :=
  match q, p with
  | [], _ => true
  | x :: q, y :: p => N.eqb x y && prefixb q p
  | _ :: _, [] => false
  end.

Lemma prefixb_app q : forall v, prefixb q (q ++ v) = true.
Proof. induction q as [|x q IH]; intros v; cbn; [reflexivity|]. rewrite N.eqb_refl. apply IH. Qed.

(** [q] occurs in [p] at the start only, and then ends it. *)
Fixpoint later (q p : list N) : bool := match p with [] => negb (prefixb q p) | _ :: p' => negb (prefixb q p) && later q p' end.
Definition alone (q p : list N) : bool :=
  match p with [] => true | _ :: p' => later q p' end && (negb (prefixb q p) || Nat.eqb (length q) (length p)).

Lemma later_spec q u : forall v, later q (u ++ q ++ v) = true -> False.
Proof.
  induction u as [|x u IH]; intros v H; cbn [app later] in H.
  - destruct (q ++ v) eqn:E; cbn [later] in H; [rewrite <- E, prefixb_app in H; discriminate|].
    rewrite <- E, prefixb_app in H. discriminate.
  - apply andb_prop in H as [_ H]. apply (IH _ H).
Qed.

Lemma alone_spec q p u v : alone q p = true -> p = u ++ q ++ v -> u = [] /\ v = [].
Proof.
  intros A ->. unfold alone in A. apply andb_prop in A as [A B]. destruct u as [|x u].
  - split; [reflexivity|]. cbn [app] in *. rewrite prefixb_app in B. cbn [negb orb] in B. apply Nat.eqb_eq in B. rewrite app_length in B.
    destruct v; [reflexivity|cbn in B; lia].
  - exfalso. cbn [app] in A. apply (later_spec _ _ _ A).
Qed.

Section Shipped65.
Variables (ms0 : list (string * string)) (ig : list N).
Hypothesis OK : table_ok go_unicode true ig ms0 = true.

Definition canonicals : list (list N * string) := map (fun kc => (letters go_unicode true ig (snd kc), snd kc)) ms0.
Definition stable : bool :=
  let cs := canonicals in
  forallb (fun e => forallb (fun q => alone (fst q) (fst e) && (negb (listN_eqb (fst q) (fst e)) || seqb (snd q) (snd e))) cs)
    (spellings go_unicode true ig ms0).
Hypothesis ST : stable = true.

Lemma entry_canonical (toks : string -> list token -> Prop) ms D : dictionary_of toks ms D -> forall l c, In (l, c) D -> exists k, In (k, c) ms.
Proof.
  induction 1 as [|k c ms l D1 D2 T E Dd IH]; intros l' c' I; [destruct I|]. apply in_app_or in I as [I|I].
  - destruct E as (ps & sy & _ & _ & ->). apply in_map_iff in I as (x & X & _). injection X as _ <-. exists k. now left.
  - destruct (IH _ _ I) as (k' & K). exists k'. now right.
Qed.

Lemma C65_shipped_lemma scan : scanner_ok scan -> (forall k x, In (k, x) ms0 -> cuts_at_commas scan k) ->
  forall ms b, Permutation ms0 ms -> built_from go_unicode scan ms true ig b ->
  forall s l, Yields s l -> (forall t, In t l -> word t -> letters go_unicode true ig (tvalue t) <> []) ->
  exists o, Yields (SynFilter go_unicode None b s) o /\ Yields (SynFilter go_unicode None b (SynFilter go_unicode None b s)) o.
Proof.
  intros SC CC ms b P B. destruct (built_dictionary go_unicode scan SC go_comma _ _ _ _ B) as (D & Dd).
  assert (UN : unambiguous go_unicode true ig D) by (eapply table_unambiguous; eauto using go_space13, go_space10).
  assert (I : forall l c, In (l, c) D -> In (spelled go_unicode true ig l, c) (spellings go_unicode true ig ms0)).
  { intros l c H. unfold table_ok in OK. apply andb_prop in OK as [T1 _].
    assert (In (spelled go_unicode true ig l, c) (spellings go_unicode true ig ms)) as K.
    { eapply dictionary_spelled; eauto using go_space13, go_space10.
      - intros k c0 H0. eapply CC. eapply Permutation_in; [symmetry; exact P|exact H0].
      - intros k c0 r H0. eapply (spaces_vanish_spec _ _ _ _ T1). eapply Permutation_in; [symmetry; exact P|exact H0]. }
    unfold spellings in *. rewrite in_flat_map in *. destruct K as (x & Ix & K). exists x. split; [|exact K].
    eapply Permutation_in; [symmetry; exact P|exact Ix]. }
  apply (C65_lemma go_unicode scan SC go_comma _ _ _ _ _ Dd B).
  - intros l c H. apply (proj2 UN _ _ H).
  - intros l c l' c' u v H H' E.
    destruct (entry_canonical _ _ _ Dd _ _ H') as (k' & K'). apply (Permutation_in _ (Permutation_sym P)) in K'.
    assert (Q : In (letters go_unicode true ig c', c') canonicals) by (apply in_map_iff; exists (k', c'); auto).
    pose proof ST as X. unfold stable in X. rewrite forallb_forall in X. specialize (X _ (I _ _ H)). cbn [fst snd] in X.
    rewrite forallb_forall in X. specialize (X _ Q). cbn [fst snd] in X. apply andb_prop in X as [X1 X2].
    destruct (alone_spec _ _ _ _ X1 E) as [-> ->]. split; [reflexivity|]. split; [reflexivity|].
    rewrite app_nil_r in E. cbn [app] in E. rewrite E, listN_eqb_refl in X2. cbn [negb orb] in X2. apply seqb_eq in X2. subst c'.
    apply (means_free _ _ _ _ _ _ (proj1 UN)). eauto.
Qed.
End Shipped65.

Lemma CurrentPlayers_stable : stable nba_mappings [32; 46; 39; 45; 8211]%N = true.
Proof. vm_cast_no_check (eq_refl true). Qed.

(** "bash script profile" becomes "bash profile", and that becomes "bash". *)
Lemma Tags_twice :
  let l := map (piece_token go_unicode) (seg words_scan "bash script profile") in
  let r := run so_mappings true [32; 45; 46; 47]%N in
  (map tvalue (r l), map tvalue (r (r l))) = (["bash"; " "; "profile"], ["bash"])%string.
Proof. vm_compute. reflexivity. Qed.

(** "C#" becomes the tag c, followed by the number sign. *)
Lemma Tags_csharp :
  run so_mappings true [32; 45; 46; 47]%N (map (piece_token go_unicode) (seg words_scan "C#")) = [lem "c"; tok "#"].
Proof. vm_compute. reflexivity. Qed.

Section Refute64.
Variables (ms0 : list (string * string)) (ig : list N) (missed : list string) (w : string).
Hypothesis OK : table_ok go_unicode true ig ms0 = true.
Hypothesis CC : forall k x, In (k, x) ms0 -> cuts_at_commas words_scan k.
Hypothesis AB : all_but ig missed ms0 = true.
Hypothesis IW : In w missed.
Hypothesis EW : existsb (fun e => seqb (text (fst e)) w) (entries ms0) = true.

Lemma C64_refutation : forall D b, dictionary_of (key_tokens go_unicode words_scan) ms0 D -> built_from go_unicode words_scan ms0 true ig b ->
  exists l c, In (l, c) D /\ text l = w /\
    forall s, Yields s l -> ~ exists m, lemma_of go_unicode c m /\ Yields (SynFilter go_unicode None b s) [m].
Proof.
  intros D b Dd B. apply existsb_exists in EW as ((l & c) & I & E). cbn [fst] in E. apply seqb_eq in E.
  rewrite <- (dictionary_entries _ _ Dd) in I. exists l, c. split; [exact I|]. split; [exact E|].
  intros s Y H. apply (C64_shipped_lemma ms0 ig missed OK CC AB ms0 D b (Permutation_refl _) Dd B l c s I Y) in H. apply H. rewrite E. exact IW.
Qed.
End Refute64.

Lemma Tags_csharp_listed : existsb (fun e => seqb (text (fst e)) "c#") (entries so_mappings) = true.
Proof. vm_cast_no_check (eq_refl true). Qed.

Lemma Tags_csharp_missed : In "c#"%string Tags_unrecognised.
Proof. apply smem_In. vm_compute. reflexivity. Qed.

Section Twice.
Variables (ms : list (string * string)) (ic : bool) (ig : list N) (v : string) (o1 o2 : list string).
Hypothesis E : (let l := map (piece_token go_unicode) (seg words_scan v) in let r := run ms ic ig in
  (map tvalue (r l), map tvalue (r (r l)))) = (o1, o2).

Lemma run_twice b : built_from go_unicode words_scan ms ic ig b ->
  exists l1 l2, map tvalue l1 = o1 /\ map tvalue l2 = o2 /\
    Yields (SynFilter go_unicode None b (TokenizeString go_unicode words_scan v)) l1 /\
    Yields (SynFilter go_unicode None b (SynFilter go_unicode None b (TokenizeString go_unicode words_scan v))) l2.
Proof.
  intros B. cbv zeta in E. injection E as E1 E2.
  assert (Y : Yields (TokenizeString go_unicode words_scan v) (map (piece_token go_unicode) (seg words_scan v)))
    by (apply TokenizeString_yields; [exact words_scan_ok|reflexivity]).
  eexists _, _. split; [exact E1|]. split; [exact E2|]. split; [apply run_yields; assumption|].
  apply run_yields; [exact B|]. apply run_yields; assumption.
Qed.
End Twice.

Lemma run_once ms ic ig v o : run ms ic ig (map (piece_token go_unicode) (seg words_scan v)) = o ->
  forall b, built_from go_unicode words_scan ms ic ig b -> Yields (SynFilter go_unicode None b (TokenizeString go_unicode words_scan v)) o.
Proof. intros <- b B. apply run_yields; [exact B|]. apply TokenizeString_yields; [exact words_scan_ok|reflexivity]. Qed.
