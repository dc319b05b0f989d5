(** * PropAliasLemmas: proofs for C82 *)

From Verif Require Import Base Utf8 Unicode UnicodeData Token Stream Queue Tokenizer Filters Trie Synonyms Words
  Sources Aliasing AliasSpec.
Local Open Scope string_scope.
Local Open Scope list_scope.

(** Only [agree]ing memories matter to [K] when its filter satisfies [Q]. *)
Lemma run_same K (agree : mem -> mem -> Prop) (Q : obj K -> Prop) :
  (forall fuel m m' f s, agree m m' -> Q f -> apply K fuel m f s = apply K fuel m' f s) ->
  (forall fuel m f s f' x, Q f -> apply K fuel m f s = Ret (f', x) -> Q f') ->
  (forall fuel m m' f x, agree m m' -> Q f -> next K fuel m f x = next K fuel m' f x) ->
  forall fuel ops m m0 f xs, Q f -> agree m m0 -> (forall m', changes ops m' -> agree m' m0) ->
  run K fuel m f xs ops = run K fuel m0 f xs (unchanged ops).
Proof.
  intros HA HQ HN fuel ops. induction ops as [|o ops IH]; intros m m0 f xs q a ch; [reflexivity|].
  assert (ch' : forall m', changes ops m' -> agree m' m0) by (intros m' I; apply ch; now right).
  destruct o as [m'|s|i]; cbn [run unchanged filter].
  - apply IH; [exact q| |exact ch']. apply ch. now left.
  - fold (unchanged ops). rewrite (HA fuel m m0 f s a q).
    destruct (apply K fuel m0 f s) as [[f' x]| |] eqn:E; cbn; try reflexivity.
    apply IH; [now apply (HQ _ _ _ _ _ _ q E)|exact a|exact ch'].
  - fold (unchanged ops). destruct (nth_error xs i) as [x|]; [|reflexivity].
    rewrite (HN fuel m m0 f x a q). destruct (next K fuel m0 f x) as [[r x']| |]; cbn; try reflexivity.
    now rewrite (IH m m0 f _ q a ch').
Qed.

Lemma C82_stopwords_lemma U ic : independent (stopwords_maker U ic).
Proof.
  intros fuel m ops _. unfold session.
  apply (run_same (stopwords_maker U ic) (fun _ _ => True) (fun _ => True)); auto.
Qed.

Lemma C82_mapper_lemma fuel m ops :
  (forall m', changes ops m' -> m_funcs m' = m_funcs m) ->
  session mapper_maker fuel m ops = session mapper_maker fuel m (unchanged ops).
Proof.
  intro H. unfold session.
  apply (run_same mapper_maker (fun m m' => m_funcs m = m_funcs m') (fun _ => True)); auto.
  intros fuel' m1 m2 f x E _. cbn. now rewrite E.
Qed.

Lemma C82_synonyms_lemma U scan ic fuel m before s after :
  (forall m', changes before m' -> m_mappings m' = m_mappings m /\ m_runes m' = m_runes m) ->
  (forall s', ~ In (Apply s') before) ->
  session (synonyms_maker U scan ic) fuel m (before ++ Apply s :: after) =
  session (synonyms_maker U scan ic) fuel m (unchanged (before ++ Apply s :: after)).
Proof.
  intros H N. unfold session.
  cut (forall m1 xs, m_mappings m1 = m_mappings m -> m_runes m1 = m_runes m ->
    run (synonyms_maker U scan ic) fuel m1 None xs (before ++ Apply s :: after) =
    run (synonyms_maker U scan ic) fuel m None xs (unchanged (before ++ Apply s :: after))).
  { intro C. now apply C. }
  induction before as [|o before IH]; intros m1 xs E1 E2.
  - cbn [app run unchanged filter]. fold (unchanged after). cbn [apply synonyms_maker]. rewrite E1, E2.
    destruct (build U scan fuel _) as [[err b]| |]; cbn [bind]; try reflexivity.
    apply (run_same (synonyms_maker U scan ic) (fun _ _ => True) (fun f => f <> None)); auto; try discriminate.
    + intros fuel' a a' [b'|] s' _ q; [reflexivity|easy].
    + intros fuel' a [b'|] s' f' x q E; [|easy]. cbn in E. injection E as <- <-. discriminate.
  - assert (H' : forall m', changes before m' -> m_mappings m' = m_mappings m /\ m_runes m' = m_runes m)
      by (intros m' I; apply H; now right).
    assert (N' : forall s', ~ In (Apply s') before) by (intros s' I; apply (N s'); now right).
    destruct o as [m'|s'|i]; cbn [app run unchanged filter].
    + destruct (H m') as [A B]; [now left|]. now apply (IH H' N').
    + exfalso. apply (N s'). now left.
    + destruct (nth_error xs i) as [[e st]|]; reflexivity.
Qed.

(** What counts for a synonyms filter is what the arguments are at its first use. *)
Lemma C82_synonyms_first_use_lemma U scan ic fuel m m1 ops :
  session (synonyms_maker U scan ic) fuel m (Change m1 :: ops) = session (synonyms_maker U scan ic) fuel m1 ops.
Proof. reflexivity. Qed.

Definition mem_of (ms : list (string * string)) (fs : list mapfunc) : mem := mkMem [] ms [] fs.

Definition one_word : list op -> list op := fun c => c ++ [Apply (source [tok "js"] None); Call 0].

Lemma syn_witness :
  session (synonyms_maker go_unicode words_scan true) 9 (mem_of [("js", "javascript")] []) (one_word [Change (mem_of [] [])]) =
    Ret [(Some (tok "js"), None)] /\
  session (synonyms_maker go_unicode words_scan true) 9 (mem_of [("js", "javascript")] []) (one_word []) =
    Ret [(Some (mkToken "javascript" false false true), None)].
Proof. vm_compute. split; reflexivity. Qed.

Lemma map_witness :
  session mapper_maker 9 (mem_of [] [fun t => Some (tok "a")]) (one_word [Change (mem_of [] [fun t => Some (tok "b")])]) =
    Ret [(Some (tok "b"), None)] /\
  session mapper_maker 9 (mem_of [] [fun t => Some (tok "a")]) (one_word []) = Ret [(Some (tok "a"), None)].
Proof. vm_compute. split; reflexivity. Qed.

Lemma C82_refutation :
  ~ (forall U scan ic, independent (synonyms_maker U scan ic)) /\ ~ independent mapper_maker.
Proof.
  split; intro H.
  - specialize (H go_unicode words_scan true 9 (mem_of [("js", "javascript")] []) (one_word [Change (mem_of [] [])])).
    destruct syn_witness as [A B].
    assert (P : forall m', changes (one_word [Change (mem_of [] [])]) m' -> possible (mem_of [("js", "javascript")] []) m').
    { intros m' [E|[E|[E|[]]]]; [injection E as <-; now repeat split|discriminate|discriminate]. }
    specialize (H P). change (unchanged (one_word [Change (mem_of [] [])])) with (one_word []) in H.
    rewrite A, B in H. discriminate.
  - destruct map_witness as [A B].
    specialize (H 9 (mem_of [] [fun t => Some (tok "a")]) (one_word [Change (mem_of [] [fun t => Some (tok "b")])])).
    assert (P : forall m', changes (one_word [Change (mem_of [] [fun t => Some (tok "b")])]) m' ->
      possible (mem_of [] [fun t => Some (tok "a")]) m').
    { intros m' [E|[E|[E|[]]]]; [injection E as <-; now repeat split|discriminate|discriminate]. }
    specialize (H P). change (unchanged (one_word [Change (mem_of [] [fun t => Some (tok "b")])])) with (one_word []) in H.
    rewrite A, B in H. discriminate.
Qed.

(** Undisturbed, the filters are those of the other theorems. *)
Lemma run_calls K fuel m f (step : nat -> loc K -> outcome (result * loc K)) :
  (forall k x, next K k m f x = step k x) ->
  forall n x t e, run K fuel m f [x] (repeat (Call 0) n) = calls fuel n (closure step t e x).
Proof.
  intros H n. induction n as [|n IH]; intros x t e; [reflexivity|].
  cbn [repeat run nth_error calls set_nth]. unfold Next. cbn [ts_next closure]. rewrite H.
  destruct (step fuel x) as [[r x']| |]; cbn [bind]; try reflexivity. now rewrite <- IH.
Qed.

Lemma C82_undisturbed_lemma U scan ic fuel m s n :
  session (stopwords_maker U ic) fuel m (Apply s :: repeat (Call 0) n) = calls fuel n (Stopwords U (m_words m) ic s) /\
  session mapper_maker fuel m (Apply s :: repeat (Call 0) n) = calls fuel n (Mapper (m_funcs m) s) /\
  session (synonyms_maker U scan ic) fuel m (Apply s :: repeat (Call 0) n) =
    (do (err, b) <- build U scan fuel (mkConfig (m_mappings m) ic (m_runes m)); calls fuel n (SynFilter U err b s)).
Proof.
  unfold session. repeat split; cbn [run apply make stopwords_maker mapper_maker synonyms_maker bind app].
  - now apply run_calls with (K := stopwords_maker U ic).
  - now apply run_calls with (K := mapper_maker).
  - destruct (build U scan fuel _) as [[err b]| |]; cbn [bind]; try reflexivity.
    cut (forall st t e, run (synonyms_maker U scan ic) fuel m (Some b) [(err, st)] (repeat (Call 0) n) =
      calls fuel n (closure (syn_closure U err b) t e st)).
    { intro C. apply C. }
    induction n as [|n IH]; intros st t e; [reflexivity|].
    cbn [repeat run nth_error calls set_nth next synonyms_maker]. unfold Next. cbn [ts_next closure].
    destruct (syn_closure U err b fuel st) as [[r x']| |]; cbn [bind]; try reflexivity. now rewrite <- IH.
Qed.
