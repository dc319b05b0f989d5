(** * PropRetextLemmas: expanding contractions in a text that was expanded before (C80). *)

From Verif Require Import Base Utf8 Unicode UnicodeData Token Stream StreamSpec Tokenizer Words WordSplit Filters ContractionsTable FilterSpec ExpandSpec
  StreamProofs TokenProofs Utf8Proofs AsciiProofs FilterProofs WordsProofs PropFiltersLemmas WordSplitProofs WordStable WordJoin PropExpandLemmas PropStableLemmas.
From Verif Require GeneratorProofs.
Local Open Scope N_scope.

Lemma chunk_runes n : forall s, (String.length s <= n)%nat -> map fst (chunks s) = runes s.
Proof.
  induction n as [|n IH]; intros s Len.
  - destruct s; [reflexivity|cbn in Len; lia].
  - destruct s as [|c1 s1]; [reflexivity|]. cbn [String.length] in Len. cbn [chunks runes].
    assert (One : map fst ((RuneError, String c1 EmptyString) :: chunks s1) = RuneError :: runes s1) by (cbn [map fst]; f_equal; apply IH; lia).
    destruct (byte_of c1 <? 128); [cbn [map fst]; f_equal; apply IH; lia|].
    destruct (in_range 194 223 (byte_of c1)).
    { destruct s1 as [|c2 s2]; [exact One|]. destruct (cont (byte_of c2)); [|exact One]. cbn [map fst]. f_equal. apply IH. cbn in Len. lia. }
    destruct (in_range 224 239 (byte_of c1)).
    { destruct s1 as [|c2 [|c3 s3]]; [exact One|exact One|].
      match goal with |- context [if ?b then _ else _] => destruct b end; [|exact One]. cbn [map fst]. f_equal. apply IH. cbn in Len. lia. }
    destruct (in_range 240 244 (byte_of c1)); [|exact One].
    destruct s1 as [|c2 [|c3 [|c4 s4]]]; [exact One|exact One|exact One|].
    match goal with |- context [if ?b then _ else _] => destruct b end; [|exact One]. cbn [map fst]. f_equal. apply IH. cbn in Len. lia.
Qed.

Lemma chunks_runes s : map fst (chunks s) = runes s. Proof. exact (chunk_runes _ s (le_n _)). Qed.

(** ** The letters *)

Definition letterb (r : N) : bool := match wbc r with WALetter => true | _ => false end && negb (range_mem ext_pict r).
Lemma letterb_spec r : letterb r = true -> letter r.
Proof. unfold letterb, letter. destruct (wbc r); try discriminate. cbn [andb]. intros H. apply negb_true_iff in H. auto. Qed.

Definition az (r : N) : bool := (97 <=? r) && (r <=? 122).
Definition letter_fine (x : N) : bool := negb (az (L x)) || letterb x && negb (x =? RuneError).
Lemma letters_table : forallb letter_fine (lower_points lower_runs) && forallb (fun n => letter_fine (N.of_nat n)) (seq 0 128) = true.
Proof. vm_cast_no_check (eq_refl true). Qed.

Lemma lower_letter x : az (L x) = true -> letter x /\ x <> RuneError.
Proof.
  intros A. pose proof letters_table as T. apply andb_prop in T as [T1 T2]. rewrite forallb_forall in T1, T2.
  assert (F : letter_fine x = true).
  { pose proof lower_table as T. apply andb_prop in T as [T _].
    assert (F : Forall (fun x : N * N * N * Z => snd (fst x) <> 0) lower_runs).
    { apply Forall_forall. rewrite forallb_forall in T. intros y I. specialize (T y I). now apply negb_true_iff, N.eqb_neq in T. }
    destruct (lower_point lower_runs F x) as [E|I]; [|auto]. change (L x = x) in E. unfold az in A. rewrite E in A. apply andb_prop in A as [A1 A2]. apply N.leb_le in A1, A2.
    specialize (T2 (N.to_nat x)). cbn beta in T2. rewrite N2Nat.id in T2. apply T2, in_seq. lia. }
  unfold letter_fine in F. rewrite A in F. cbn [negb orb] in F. apply andb_prop in F as [F1 F2]. apply negb_true_iff, N.eqb_neq in F2. split; [now apply letterb_spec|exact F2].
Qed.

Lemma straight_letter r : az (L (straight r)) = true -> letter r /\ r <> RuneError.
Proof.
  unfold straight. destruct (r =? 8217) eqn:E; [|apply lower_letter]. intros H. exfalso. revert H. change (az (L 39)) with false. discriminate.
Qed.

(** A spelling that begins and ends with a letter. *)
Definition lettered (l : list N) : bool := match l with [] => false | r :: _ => az r end && match rev l with [] => false | r :: _ => az r end.

Lemma lettered_chunks v : lettered (spelling v) = true -> fresh_start v /\ starts_letter (chunks v) /\ ends_letter (chunks v).
Proof.
  unfold lettered, spelling. rewrite <- map_rev, <- chunks_runes, <- map_rev. intros H. apply andb_prop in H as [H1 H2].
  assert (S : exists r x m, chunks v = (r, x) :: m /\ letter r /\ r <> RuneError).
  { destruct (chunks v) as [|[r x] m]; [discriminate|]. cbn [map fst] in H1. exists r, x, m. split; [reflexivity|]. now apply straight_letter. }
  destruct S as (r & x & m & C & Lr & NE). split; [|split].
  - destruct (GeneratorProofs.chunk_view v r x) as [[V X]|X]; [rewrite C; now left| |contradiction].
    destruct (chunks_cons _ _ _ _ C) as (s' & _ & -> & _). rewrite X, encode_rune_valid by exact V. now apply GeneratorProofs.enc_raw_fresh.
  - exists r, x, m. auto.
  - destruct (rev (chunks v)) as [|[r2 x2] m2] eqn:R; [discriminate|]. cbn [map fst] in H2. exists (rev m2), r2, x2. split; [|now apply straight_letter in H2].
    rewrite <- (rev_involutive (chunks v)), R. reflexivity.
Qed.

(** ** The table *)

Definition row_fine (kx : string * string) : bool :=
  lettered (spelling (fst kx)) && lettered (spelling (snd kx)) && seqb (encode (runes (snd kx))) (snd kx) && forallb valid_rune (runes (snd kx)) &&
  negb (match seg words_scan (snd kx) with [] => true | _ => false end).
Lemma rows_fine : forallb row_fine contraction_mappings = true.
Proof. vm_cast_no_check (eq_refl true). Qed.

Definition ex (p : string) : list string := match lookup p with Some x => seg words_scan x | None => [p] end.

Lemma seg_word v : seg words_scan v = word_segments v. Proof. reflexivity. Qed.

Lemma ex_exchange p : exchange ex p.
Proof.
  unfold exchange, ex. destruct (lookup p) as [x|] eqn:E; [right|now left]. destruct (lookup_key _ _ E) as (k & I & S).
  pose proof rows_fine as T. rewrite forallb_forall in T. specialize (T _ I). unfold row_fine in T. cbn [fst snd] in T.
  apply andb_prop in T as [T N]. apply andb_prop in T as [T V]. apply andb_prop in T as [T En]. apply andb_prop in T as [T1 T2].
  rewrite <- S in T1. destruct (lettered_chunks _ T1) as (A1 & A2 & A3), (lettered_chunks _ T2) as (B1 & B2 & B3).
  split; [exact A1|]. split; [exact A2|]. split; [exact A3|]. cbv zeta. rewrite seg_word, (proj1 (word_segments_ok x)).
  split; [exact B1|]. split; [exact B2|]. split; [exact B3|]. split; [reflexivity|]. intros b.
  apply seqb_eq in En. rewrite forallb_forall in V. rewrite <- En at 1 2. rewrite GeneratorProofs.chunks_encode_app by (apply Forall_forall; exact V).
  f_equal. rewrite <- (sapp_nil_r (encode (runes x))), GeneratorProofs.chunks_encode_app by (apply Forall_forall; exact V). now rewrite app_nil_r.
Qed.

Lemma expand_piece p : expand_token go_unicode words_scan contraction_mappings (piece_token go_unicode p) = map (piece_token go_unicode) (ex p).
Proof.
  unfold expand_token, ex. rewrite piece_token_value. destruct (lookup p) as [x|] eqn:E; [|reflexivity]. destruct (lookup_key _ _ E) as (k & I & _).
  pose proof rows_fine as T. rewrite forallb_forall in T. specialize (T _ I). unfold row_fine in T. cbn [fst snd] in T. apply andb_prop in T as [_ N].
  destruct (seg words_scan x); [discriminate|reflexivity].
Qed.

Lemma expand_pieces ps : flat_map (expand_token go_unicode words_scan contraction_mappings) (map (piece_token go_unicode) ps) = map (piece_token go_unicode) (flat_map ex ps).
Proof. induction ps as [|p ps IH]; [reflexivity|]. cbn [map flat_map]. now rewrite expand_piece, IH, map_app. Qed.

Lemma C80_lemma s o : Yields (Contractions go_unicode words_scan contraction_mappings (TokenizeString go_unicode words_scan s)) o ->
  Yields (TokenizeString go_unicode words_scan (text o)) o /\
  Yields (Contractions go_unicode words_scan contraction_mappings (TokenizeString go_unicode words_scan (text o))) o.
Proof.
  intros Y.
  pose proof (Contractions_yields go_unicode words_scan contraction_mappings words_scan_ok contraction_values_fine _ _ (TokenizeString_yields go_unicode words_scan words_scan_ok s eq_refl)) as Y1.
  rewrite (Yields_inj _ _ _ Y Y1). clear Y Y1.
  rewrite expand_pieces, text_pieces, seg_word. destruct (replaced_segments ex (word_segments s) s eq_refl (fun p _ => ex_exchange p)) as (W & _). cbv zeta in W.
  set (S := sconcat (flat_map ex (word_segments s))) in *. pose proof (TokenizeString_yields go_unicode words_scan words_scan_ok S eq_refl) as YS. rewrite seg_word, W in YS. split; [exact YS|].
  pose proof (Contractions_yields go_unicode words_scan contraction_mappings words_scan_ok contraction_values_fine _ _ YS) as Y2.
  rewrite <- expand_pieces in Y2 |- *. rewrite expand_twice in Y2 by exact words_scan_splits. exact Y2.
Qed.
