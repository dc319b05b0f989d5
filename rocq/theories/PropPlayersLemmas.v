(** * PropPlayersLemmas: proofs for C88 *)

From Coq Require Import Permutation.
From Verif Require Import Base Utf8 Unicode UnicodeData Token Stream StreamSpec Tokenizer Words Ascii Trie Synonyms FilterSpec SynSpec
  ChainSpec DictSpec CanonSpec Dictionaries NbaTable PlayersSpec StreamProofs TokenProofs FilterProofs WordsProofs TrieProofs SynProofs
  BuildProofs Sources DictProofs PropSynLemmas PropSynLemmas2 PropSynLemmas4 PropSynLemmas5 PropStableLemmas PropExactLemmas.

Notation nba_ig := ([32; 46; 39; 45; 8211]%N).

Lemma name_letters_ig v : name_letters v = letters go_unicode true nba_ig v.
Proof.
  unfold name_letters, letters. apply filter_ext. intros r. f_equal. cbn [existsb].
  destruct (N.eqb r 32), (N.eqb r 45), (N.eqb r 39), (N.eqb r 46), (N.eqb r 8211); reflexivity.
Qed.

Section Check.
Variables (sp : list token -> list N) (f g : string -> list N) (E : dictionary) (M : list (string * string)).

Definition names_ok : bool :=
  let D := map (fun lc => (sp (fst lc), snd lc)) E in
  let names := map (fun kc : string * string => (snd kc, (f (snd kc), g (snd kc)))) M in
  forallb (fun e : list N * string => existsb (fun c => if seqb (fst c) (snd e) then
      if listN_eqb (fst e) (fst (snd c)) then true else listN_eqb (fst e) (snd (snd c)) else false) names) D &&
  forallb (fun c => existsb (fun e : list N * string => if seqb (snd e) (fst c) then listN_eqb (fst e) (fst (snd c)) else false) D &&
    existsb (fun e : list N * string => if seqb (snd e) (fst c) then listN_eqb (fst e) (snd (snd c)) else false) D) names.

Lemma names_spec : names_ok = true -> forall p c,
  (exists l, In (l, c) E /\ sp l = p) <-> (exists k, In (k, c) M) /\ (p = f c \/ p = g c).
Proof.
  intros C p c. unfold names_ok in C. cbv zeta in C. apply andb_prop in C as [C1 C2].
  rewrite forallb_forall in C1, C2. split.
  - intros (l & I & <-).
    specialize (C1 _ (in_map (fun lc => (sp (fst lc), snd lc)) _ _ I)). cbn [fst snd] in C1.
    apply existsb_exists in C1 as ([c0 [a b]] & Ic & C1). cbn [fst snd] in C1. apply in_map_iff in Ic as ([k c1] & Q & Ic). injection Q as -> <- <-.
    cbn [snd] in *. destruct (seqb c0 c) eqn:S; [|discriminate]. apply seqb_eq in S. subst c0.
    split; [exists k; exact Ic|].
    destruct (listN_eqb (sp l) (f c)) eqn:Ea; [left; apply listN_eqb_eq, Ea|right; apply listN_eqb_eq, C1].
  - intros ((k & I) & H).
    specialize (C2 _ (in_map (fun kc : string * string => (snd kc, (f (snd kc), g (snd kc)))) _ _ I)).
    cbn [fst snd] in C2. apply andb_prop in C2 as [A B].
    assert (G : forall q, existsb (fun e : list N * string => if seqb (snd e) c then listN_eqb (fst e) q else false)
        (map (fun lc => (sp (fst lc), snd lc)) E) = true -> exists l, In (l, c) E /\ sp l = q).
    { intros q X. apply existsb_exists in X as ([q' c'] & Ie & X). apply in_map_iff in Ie as ([l c0] & E0 & Il). injection E0 as <- <-.
      cbn [fst snd] in X. destruct (seqb c0 c) eqn:S; [|discriminate]. apply seqb_eq in S. subst c0.
      exists l. split; [exact Il|apply listN_eqb_eq, X]. }
    destruct H as [-> | ->]; auto.
Qed.
End Check.

Lemma players_checked : names_ok (spelled go_unicode true nba_ig) name_letters (fun c => name_letters (without_diacritics c))
  (entries nba_mappings) nba_mappings = true.
Proof. vm_cast_no_check (eq_refl true). Qed.

Lemma nba_widths : widths (entries nba_mappings) = 3.
Proof. vm_cast_no_check (eq_refl 3). Qed.

Lemma nba_unambiguous ms : Permutation nba_mappings ms -> unambiguous go_unicode true nba_ig (entries ms).
Proof.
  intros P. eapply table_unambiguous; eauto using go_space13, go_space10, words_scan_ok, entries_dictionary, nba_table_ok, words_scan_cuts_nba.
Qed.

Lemma perm_entries ms : Permutation nba_mappings ms -> forall x, In x (entries nba_mappings) <-> In x (entries ms).
Proof.
  intros P x. split; [apply (dictionary_perm go_unicode words_scan nba_mappings ms)|apply (dictionary_perm go_unicode words_scan ms nba_mappings)];
    auto using Permutation_sym, entries_dictionary, words_scan_ok.
Qed.

(** The names in the dictionary. *)
Lemma C88_names ms D : Permutation (cf_mappings CurrentPlayers_config) ms -> dictionary_of (key_tokens go_unicode words_scan) ms D ->
  forall p c, means go_unicode true nba_ig D p c <->
  player c /\ (p = name_letters c \/ p = name_letters (without_diacritics c)).
Proof.
  intros P Dd p c. rewrite (dictionary_entries _ _ Dd).
  rewrite (means_free _ _ _ _ _ _ (proj1 (nba_unambiguous ms P))).
  pose proof (names_spec _ _ _ _ _ players_checked p c) as H.
  etransitivity; [|exact H].
  split; intros (l & I & E); exists l; (split; [|exact E]); [exact (proj2 (perm_entries ms P _) I)|exact (proj1 (perm_entries ms P _) I)].
Qed.

Lemma C88_exact ms b : Permutation (cf_mappings CurrentPlayers_config) ms ->
  built_from go_unicode words_scan ms (cf_ignoreCase CurrentPlayers_config) (cf_ignoreRunes CurrentPlayers_config) b ->
  forall s l c, (forall t, In t l -> tlemma t = false) -> Yields s l ->
  (recognised b s c <->
   player c /\ exists l0 x, l = l0 ++ [x] /\ word (hd x l) /\ window 3 l = l /\ name_letters (tvalue x) <> [] /\
     (flat_map (fun t => name_letters (tvalue t)) l = name_letters c \/
      flat_map (fun t => name_letters (tvalue t)) l = name_letters (without_diacritics c))).
Proof.
  intros P B s l c NL Y. unfold recognised.
  assert (W : widest (entries ms) 3).
  { assert (W : widest (entries nba_mappings) 3) by (rewrite <- nba_widths; apply widths_max).
    destruct W as (W1 & W2 & W3). split; [exact W1|]. split.
    - intros l' c' I. apply (W2 l' c'). exact (proj2 (perm_entries ms P _) I).
    - destruct W3 as [W3|(l' & c' & I & E)]; [left; exact W3|right; exists l', c'; split; [exact (proj1 (perm_entries ms P _) I)|exact E]]. }
  rewrite (C40_exact go_unicode words_scan words_scan_ok go_comma ms true nba_ig (entries ms) b (entries_dictionary ms) B
    (proj2 (nba_unambiguous ms P)) 3 W l c s NL Y).
  assert (Sp : spelled go_unicode true nba_ig l = flat_map (fun t => name_letters (tvalue t)) l).
  { unfold spelled. apply flat_map_ext. intros t. symmetry. apply name_letters_ig. }
  split.
  - intros (l0 & x & E & Hw & Wi & Lx & M). apply (C88_names ms _ P (entries_dictionary ms)) in M as [Pc M].
    split; [exact Pc|]. exists l0, x. rewrite name_letters_ig. rewrite <- Sp. auto.
  - intros (Pc & l0 & x & E & Hw & Wi & Lx & M). exists l0, x. rewrite <- name_letters_ig. repeat split; auto; try apply Hw.
    apply (C88_names ms _ P (entries_dictionary ms)). rewrite Sp. auto.
Qed.

Definition played (v : string) : list token := run nba_mappings true nba_ig (map (piece_token go_unicode) (seg words_scan v)).

Lemma played_yields v ms b : Permutation nba_mappings ms -> built_from go_unicode words_scan ms true nba_ig b ->
  Yields (SynFilter go_unicode None b (TokenizeString go_unicode words_scan v)) (played v).
Proof.
  intros P B. apply (shipped_run _ _ nba_table_ok words_scan_cuts_nba ms b _ _ P B). apply TokenizeString_yields; [exact words_scan_ok|reflexivity].
Qed.

Lemma played_words : map played ["Luka Dončic"; "De’Aaron Fox"; "luka doncic"; "LUKA-DONČIĆ"]%string =
  [[tok "Luka"; tok " "; tok "Dončic"]; [tok "De’Aaron"; tok " "; tok "Fox"]; [lem "Luka Dončić"]; [tok "LUKA"; tok "-"; tok "DONČIĆ"]]%string.
Proof. vm_compute. reflexivity. Qed.

Lemma played_some : played "Luka Dončic" = [tok "Luka"; tok " "; tok "Dončic"]%string.
Proof. vm_compute. reflexivity. Qed.

Lemma nba_alike : alike "Luka Dončic" "Luka Dončić" /\ alike "De’Aaron Fox" "De'Aaron Fox" /\ alike "LUKA-DONČIĆ" "Luka Dončić".
Proof. vm_compute. repeat split; reflexivity. Qed.

Lemma nba_players : player "Luka Dončić" /\ player "De'Aaron Fox".
Proof.
  assert (H : forall c, existsb (fun kc : string * string => seqb (snd kc) c) nba_mappings = true -> player c).
  { intros c E. apply existsb_exists in E as ([k c'] & I & E). apply seqb_eq in E. cbn in E. subst c'. exists k. exact I. }
  split; apply H; vm_compute; reflexivity.
Qed.

Lemma C88_refutation : exists c v, player c /\ alike v c /\
  forall ms b, Permutation (cf_mappings CurrentPlayers_config) ms ->
  built_from go_unicode words_scan ms (cf_ignoreCase CurrentPlayers_config) (cf_ignoreRunes CurrentPlayers_config) b ->
  ~ recognised b (TokenizeString go_unicode words_scan v) c.
Proof.
  exists "Luka Dončić"%string, "Luka Dončic"%string. split; [exact (proj1 nba_players)|]. split; [exact (proj1 nba_alike)|].
  intros ms b P B (m & _ & Y). pose proof (Yields_inj _ _ _ (played_yields "Luka Dončic"%string ms b P B) Y) as E.
  rewrite played_some in E. discriminate.
Qed.

Lemma C88_example_lemma :
  (exists D b, dictionary_of (key_tokens go_unicode words_scan) (cf_mappings CurrentPlayers_config) D /\
    built_from go_unicode words_scan (cf_mappings CurrentPlayers_config) (cf_ignoreCase CurrentPlayers_config) (cf_ignoreRunes CurrentPlayers_config) b) /\
  forall b, built_from go_unicode words_scan (cf_mappings CurrentPlayers_config) (cf_ignoreCase CurrentPlayers_config) (cf_ignoreRunes CurrentPlayers_config) b ->
  Forall2 (fun v o => Yields (SynFilter go_unicode None b (TokenizeString go_unicode words_scan v)) o)
    ["Luka Dončic"; "De’Aaron Fox"; "luka doncic"; "LUKA-DONČIĆ"]%string
    [[tok "Luka"; tok " "; tok "Dončic"]; [tok "De’Aaron"; tok " "; tok "Fox"]; [lem "Luka Dončić"]; [tok "LUKA"; tok "-"; tok "DONČIĆ"]]%string.
Proof.
  split; [apply concrete_built|]. intros b B. rewrite <- played_words. cbn [map].
  repeat (apply Forall2_cons; [apply (played_yields _ nba_mappings b (Permutation_refl _) B)|]). apply Forall2_nil.
Qed.
