(** * PropStableLemmas: parts of a text, canonical terms (C76, C77). *)

From Coq Require Import Permutation.
From Verif Require Import Base Utf8 Unicode UnicodeData Token Stream StreamSpec Tokenizer Words Trie Synonyms FilterSpec SynSpec ChainSpec
  DictSpec CanonSpec Dictionaries NbaTable SoTable StreamProofs TokenProofs FilterProofs WordsProofs TrieProofs SynProofs BuildProofs Sources
  PropSynLemmas PropSynLemmas2 DictProofs PropSynLemmas4 PropSynLemmas5 WordSplitProofs WordStable PropOrderLemmas.

(** ** C76 *)

Lemma map_three {A B} (f : A -> B) l : forall xs ys zs, map f l = xs ++ ys ++ zs ->
  exists as_ bs cs, l = as_ ++ bs ++ cs /\ map f as_ = xs /\ map f bs = ys /\ map f cs = zs.
Proof.
  intros xs ys zs E. apply map_eq_app in E as (as_ & r & -> & <- & E). apply map_eq_app in E as (bs & cs & -> & <- & <-).
  exists as_, bs, cs. auto.
Qed.

Lemma text_pieces U l : text (map (piece_token U) l) = sconcat l.
Proof. unfold text. now rewrite piece_tokens_value. Qed.

Lemma C76_lemma U s xs ys zs : Yields (TokenizeString U words_scan s) (xs ++ ys ++ zs) ->
  Yields (TokenizeString U words_scan (text ys)) ys.
Proof.
  intros Y. pose proof (TokenizeString_yields U words_scan words_scan_ok s eq_refl) as Y0.
  pose proof (Yields_inj _ _ _ Y0 Y) as E. apply map_three in E as (ps & qs & rs & E & _ & <- & _).
  rewrite text_pieces. pose proof (TokenizeString_yields U words_scan words_scan_ok (sconcat qs) eq_refl) as Y1.
  replace (seg words_scan (sconcat qs)) with qs in Y1; [exact Y1|]. symmetry. exact (pieces_alone s ps qs rs E).
Qed.

(** ** C77 *)

Section Shipped77.
Variables (ms0 : list (string * string)) (ig : list N) (ex : list string).
Hypothesis OK : table_ok go_unicode true ig ms0 = true.
Hypothesis CC : forall k x, In (k, x) ms0 -> cuts_at_commas words_scan k.

(** The filter does the same for every order of the map. *)
Lemma shipped_run ms b s l : Permutation ms0 ms -> built_from go_unicode words_scan ms true ig b -> Yields s l ->
  Yields (SynFilter go_unicode None b s) (run ms0 true ig l).
Proof.
  intros P B Y.
  assert (UN : forall m, Permutation ms0 m -> unambiguous go_unicode true ig (entries m)).
  { intros m Pm. eapply table_unambiguous; eauto using go_space13, go_space10, words_scan_ok, entries_dictionary. }
  destruct (C38_lemma go_unicode words_scan words_scan_ok go_comma _ _ _ _ _ (entries_dictionary ms) B) as (n & W & H).
  destruct (H _ _ Y) as (o & R & Yo).
  assert (E : forall x, In x (entries ms0) <-> In x (entries ms)).
  { intros x. split; [apply (dictionary_perm go_unicode words_scan ms0 ms)|apply (dictionary_perm go_unicode words_scan ms ms0)];
      auto using Permutation_sym, entries_dictionary, words_scan_ok. }
  rewrite (widest_ext _ _ _ _ (fun x => iff_sym (E x)) W (widths_max (entries ms0))) in R.
  assert (R2 : rewrites go_unicode true ig (entries ms0) (widths (entries ms0)) l o).
  { eapply agree_rewrites; [exact R|]. intros g c _.
    rewrite (means_free _ _ _ _ _ _ (proj1 (UN _ P))), (means_free _ _ _ _ _ _ (proj1 (UN _ (Permutation_refl _)))).
    split; intros (l' & I & Q); exists l'; split; auto; now apply E. }
  unfold run. rewrite <- (rewrites_inj go_unicode true ig (entries ms0) (widths (entries ms0)) (S (length l)) _ _ _ (le_n _) R2); [exact Yo|].
  apply rw_rewrites; [|lia]. apply (repr_addall go_unicode true ig (entries ms0) _ [] (repr_New go_unicode true ig)).
Qed.

(** The trie is built once. *)
Definition exceptions_are : bool :=
  let D := entries ms0 in let tr := addall go_unicode (trie_New true ig) D in let n := widths D in
  forallb (fun kc : string * string => let l := map (piece_token go_unicode) (seg words_scan (snd kc)) in
    Bool.eqb (seqb (text (rw go_unicode (length l) tr n l)) (snd kc)) (negb (smem (snd kc) ex))) ms0.

Hypothesis EX : exceptions_are = true.

Lemma C77_shipped_lemma : forall ms b, Permutation ms0 ms -> built_from go_unicode words_scan ms true ig b ->
  forall k c, In (k, c) ms0 ->
  exists o, Yields (SynFilter go_unicode None b (TokenizeString go_unicode words_scan c)) o /\ (text o = c <-> ~ In c ex).
Proof.
  intros ms b P B k c I. eexists. split; [eapply (shipped_run ms b _ _ P B); apply TokenizeString_yields; [exact words_scan_ok|reflexivity]|].
  unfold exceptions_are in EX. cbv zeta in EX. rewrite forallb_forall in EX. specialize (EX _ I). cbn [snd] in EX. apply Bool.eqb_prop in EX.
  rewrite <- seqb_eq. unfold run. cbv zeta. rewrite EX, negb_true_iff. destruct (smem c ex) eqn:M.
  - split; [discriminate|]. intros N. destruct N. now apply smem_In.
  - split; [|reflexivity]. intros _ J. apply smem_In in J. congruence.
Qed.
End Shipped77.

Lemma Tags_exceptions : exceptions_are so_mappings [32; 45; 46; 47]%N Tags_altered = true.
Proof. vm_cast_no_check (eq_refl true). Qed.

Lemma CurrentPlayers_exceptions : exceptions_are nba_mappings [32; 46; 39; 45; 8211]%N [] = true.
Proof. vm_cast_no_check (eq_refl true). Qed.

Lemma CurrentPlayers_canonical : forall ms b, Permutation nba_mappings ms -> built_from go_unicode words_scan ms true [32; 46; 39; 45; 8211]%N b ->
  forall k c, In (k, c) nba_mappings ->
  exists o, Yields (SynFilter go_unicode None b (TokenizeString go_unicode words_scan c)) o /\ text o = c.
Proof.
  intros ms b P B k c I. destruct (C77_shipped_lemma _ _ [] nba_table_ok words_scan_cuts_nba CurrentPlayers_exceptions ms b P B k c I) as (o & Y & E).
  exists o. split; [exact Y|]. now apply E.
Qed.

(** Witnesses: with the list of the tokens. *)
Lemma Tags_once v o : run so_mappings true [32; 45; 46; 47]%N (map (piece_token go_unicode) (seg words_scan v)) = o ->
  forall ms b, Permutation so_mappings ms -> built_from go_unicode words_scan ms true [32; 45; 46; 47]%N b ->
  Yields (SynFilter go_unicode None b (TokenizeString go_unicode words_scan v)) o.
Proof.
  intros <- ms b P B. apply (shipped_run _ _ so_table_ok words_scan_cuts_so ms b _ _ P B). apply TokenizeString_yields; [exact words_scan_ok|reflexivity].
Qed.

Lemma chosen (r : string -> list token) v0 o0 vs ws : (r v0, map (fun v => map tvalue (r v)) vs) = (o0, ws) -> r v0 = o0 /\ Forall2 (fun v w => map tvalue (r v) = w) vs ws.
Proof.
  intros E. injection E as E0 E. split; [exact E0|]. revert ws E. induction vs as [|v vs IH]; intros ws E; destruct ws as [|w ws]; try discriminate; constructor; cbn [map] in E; injection E as E1 E2; auto.
Qed.

Definition tagged (v : string) : list token := run so_mappings true [32; 45; 46; 47]%N (map (piece_token go_unicode) (seg words_scan v)).

Lemma Tags_chrome : (tagged "google-chrome", map (fun v => map tvalue (tagged v)) ["react"; "React.js"; "React JS"; "REACTJS"; "ruby on rails"; "ObjC"]%string) =
  ([tok "google"; tok "-"; lem "google-chrome"], [["reactjs"]; ["reactjs"]; ["reactjs"]; ["reactjs"]; ["ruby-on-rails"]; ["objective-c"]]%string).
Proof. vm_cast_no_check (eq_refl ([tok "google"; tok "-"; lem "google-chrome"], [["reactjs"]; ["reactjs"]; ["reactjs"]; ["reactjs"]; ["ruby-on-rails"]; ["objective-c"]]%string)). Qed.

Lemma Tags_tagged v o : tagged v = o ->
  forall b, built_from go_unicode words_scan so_mappings true [32; 45; 46; 47]%N b ->
  Yields (SynFilter go_unicode None b (TokenizeString go_unicode words_scan v)) o.
Proof. intros E b. exact (Tags_once v o E so_mappings b (Permutation_refl _)). Qed.

Lemma Tags_chrome_listed : existsb (fun kc => seqb (snd kc) "google-chrome") so_mappings = true.
Proof. vm_compute. reflexivity. Qed.

Lemma C77_refutation : exists c,
  (exists k, In (k, c) so_mappings) /\
  forall b, built_from go_unicode words_scan so_mappings true [32; 45; 46; 47]%N b ->
  Yields (SynFilter go_unicode None b (TokenizeString go_unicode words_scan c)) [tok "google"; tok "-"; lem "google-chrome"] /\
  text [tok "google"; tok "-"; lem "google-chrome"] <> c.
Proof.
  exists "google-chrome"%string. split.
  - pose proof Tags_chrome_listed as T. apply existsb_exists in T as ((k & c) & I & E). apply seqb_eq in E. cbn in E. subst c. eauto.
  - intros b B. split; [|vm_compute; discriminate]. exact (Tags_tagged _ _ (proj1 (chosen tagged _ _ _ _ Tags_chrome)) b B).
Qed.

Lemma Tags_readme : forall b, built_from go_unicode words_scan so_mappings true [32; 45; 46; 47]%N b ->
  Forall2 (fun v w => exists o, Yields (SynFilter go_unicode None b (TokenizeString go_unicode words_scan v)) o /\ map tvalue o = w)
    ["react"; "React.js"; "React JS"; "REACTJS"; "ruby on rails"; "ObjC"]%string [["reactjs"]; ["reactjs"]; ["reactjs"]; ["reactjs"]; ["ruby-on-rails"]; ["objective-c"]]%string.
Proof.
  intros b B. refine (Forall2_impl' _ _ _ _ _ (proj2 (chosen tagged _ _ _ _ Tags_chrome))).
  intros v w E. exists (tagged v). split; [exact (Tags_tagged v _ eq_refl b B)|exact E].
Qed.
