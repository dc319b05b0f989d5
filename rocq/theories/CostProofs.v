(** * CostProofs: lemmas behind C47. *)

From Coq Require Import ZArith.
From Verif Require Import Base Utf8 Unicode Token Stream StreamSpec Queue Tokenizer Filters Trie Synonyms SynSpec ChainSpec FilterSpec
  StreamProofs FilterProofs TrieProofs SynProofs BuildProofs PropSynLemmas PropSynLemmas2 Sources SliceQueue QueueSpec QueueProofs Cost CostSpec.

Lemma syn_loop_c_forget U b fuel : forall k st n, forget (syn_loop_c U b fuel k st n) = syn_loop U b fuel k st.
Proof.
  induction k as [|k IH]; intros st n; [reflexivity|]. cbn [syn_loop_c syn_loop]. unfold fill_c.
  destruct (fill fuel (b_maxWords b) st) as [[err st1]| |]; cbn [bind]; try reflexivity.
  destruct err as [e|]; [reflexivity|]. destruct (Nat.eqb (q_len (y_buf st1)) 0); [reflexivity|].
  destruct (wordrun (b_maxWords b) (y_buf st1)) as [[e|] run]; [reflexivity|]. destruct (Nat.eqb (length run) 0); [reflexivity|].
  destruct (b_trie b) as [tr|]; [|reflexivity]. destruct (SearchCanonical U tr run) as [[[|] ca] co].
  - destruct (q_drop (y_buf st1) co); cbn [bind]; try reflexivity. apply IH.
  - destruct (q_popto (y_buf st1) (y_out st1)) as [[b1 o1]| |]; cbn [bind]; try reflexivity. apply IH.
Qed.

Lemma syn_next_c_forget U b fuel st : forget (syn_next_c U b fuel st) = syn_next U b fuel st.
Proof.
  unfold syn_next_c, syn_next. destruct (negb _); [reflexivity|]. destruct (q_any (y_out st)).
  - destruct (q_pop (y_out st)) as [[t q]| |]; reflexivity.
  - rewrite <- (syn_loop_c_forget U b fuel fuel st 0). destruct (syn_loop_c U b fuel fuel st 0) as [[[err st1] n]| |]; cbn [bind forget]; try reflexivity.
    destruct err; [reflexivity|]. destruct (q_flushto (y_buf st1) (y_out st1)) as [b1 o1]. destruct (q_any o1); [|reflexivity].
    destruct (q_pop o1) as [[t q]| |]; reflexivity.
Qed.

Lemma contractions_next_c_forget U scan ms fuel st : forget (contractions_next_c U scan ms fuel st) = contractions_next U scan ms fuel st.
Proof.
  unfold contractions_next_c, contractions_next. destruct (q_any (c_out st)).
  - destruct (q_pop (c_out st)) as [[t q]| |]; reflexivity.
  - destruct (Next fuel (c_in st)) as [[[[t|] [e|]] up]| |]; cbn [bind]; try reflexivity.
    destruct (tryExpansion U scan ms fuel (c_out st) t false) as [[[f [e|]] o1]| |]; cbn [bind]; try reflexivity.
    destruct f; cbn [bind].
    + destruct (q_any o1); [|reflexivity]. destruct (q_pop o1) as [[t' q]| |]; reflexivity.
    + destruct (tryExpansion U scan ms fuel o1 t true) as [[[f [e|]] o2]| |]; cbn [bind]; try reflexivity.
      destruct (q_any o2); [|reflexivity]. destruct (q_pop o2) as [[t' q]| |]; reflexivity.
Qed.

Lemma sigil_next_c_forget U sg lg fuel st : forget (sigil_next_c U sg lg fuel st) = sigil_next U sg lg fuel st.
Proof.
  unfold sigil_next_c. destruct (q_any (s_out st)) eqn:A.
  - unfold sigil_next. rewrite A. destruct (q_pop (s_out st)) as [[t q]| |]; reflexivity.
  - destruct (sigil_next U sg lg fuel st) as [[r st']| |]; reflexivity.
Qed.

(** The count is the number of elements copied in SliceQueue.Drop. *)
Lemma moved_is_copied {A} (m : mem A) i s n k m' : separate m -> nth_error (queues m) i = Some s ->
  Drop m i (Z.of_nat n) = Ret (k, m') -> k = length (view (heap_ m) s) - n.
Proof.
  intros S E D. rewrite (view_length _ _ (proj1 S i s E)).
  destruct (Nat.le_gt_cases n (s_len s)) as [L|L].
  - destruct (Drop_spec m i s n S E L) as (m1 & D1 & _). congruence.
  - unfold Drop, queue_at in D. rewrite E in D. cbn [bind] in D. unfold sl_from in D.
    destruct (Z.ltb_spec (Z.of_nat (s_len s)) (Z.of_nat n)); [|lia]. rewrite orb_true_r in D. discriminate.
Qed.

(** ** Synonyms: quadratic *)
Lemma forget_ret {A B} (o : outcome (A * B * nat)) a b : forget o = Ret (a, b) -> exists k, o = Ret (a, b, k).
Proof. destruct o as [[[a' b'] k]| |]; cbn; try discriminate. intros E. injection E as -> ->. eauto. Qed.

Lemma drain_queue U b s q st0 : (exists N, forall m, N <= m -> exists k', syn_next_c U b m (mkSyn s [] []) = Ret ((None, None), st0, k')) ->
  Drained (syn_next_c U b) (mkSyn s [] q) q (length q * (length q - 1) / 2).
Proof.
  intros [N Q]. induction q as [|t q IH].
  - apply Drained_end with (x' := st0). exists N. intros m Hm. destruct (Q m Hm) as [k E]. exists k. split; [exact E|cbn; lia].
  - replace (length (t :: q) * (length (t :: q) - 1) / 2) with (length q + length q * (length q - 1) / 2).
    + eapply Drained_next; [|exact IH]. exists 0. intros m _. eexists. split; [reflexivity|]. unfold moved. cbn. lia.
    + cbn [length]. replace (S (length q) - 1) with (length q) by lia. destruct (length q) as [|n]; [reflexivity|].
      replace (S (S n) * S n) with (S n * (S n - 1) + S n * 2) by nia. rewrite Nat.div_add by lia. lia.
Qed.

Section Syn.
Variable U : unicode.
Variable scan : oracle.
Hypothesis SC : scanner_ok scan.
Hypothesis CS : uIsSpace U 44 = false.

Lemma C47_lower ms ic ig D b : dictionary_of (key_tokens U scan) ms D -> built_from U scan ms ic ig b ->
  exists w, widest D w /\ forall s l, Yields s l ->
  exists o, rewrites U ic ig D w l o /\ Yields (SynFilter U None b s) o /\
    Drained (syn_next_c U b) (mkSyn s [] []) o (length o * (length o - 1) / 2).
Proof.
  intros Dd B. destruct (built_inv U scan SC CS ms ic ig D b Dd B) as (tr & w & -> & Se & W). exists w. split; [exact W|].
  intros s l Y. destruct (Syn_yields U ic ig D tr w Se (proj1 W) s l Y) as (o & Rw & Yo). exists o. split; [exact Rw|]. split; [exact Yo|].
  apply Src_yields in Y.
  destruct (loop_spec U ic ig D tr w Se (proj1 W) (Datatypes.S (length l)) (mkSyn s [] []) l None ltac:(cbn; lia) Y) as (err & st' & R & C).
  destruct C as [(_ & -> & B' & S' & o' & Rw' & Eo)|[C _]]; [|congruence]. cbn [y_buf y_out app] in *.
  assert (o' = o) as -> by (eapply rewrites_inj; [apply Nat.lt_succ_diag_r|exact Rw'|exact Rw]). clear Rw'.
  apply Returns2_diag in R. destruct R as [n Hn].
  destruct (syn_quiet U ic ig D tr w Se (proj1 W) (mkSyn (y_in st') [] []) ltac:(cbn; auto)) as (st2 & [n2 Q1] & _).
  assert (Q : exists N, forall m, N <= m -> exists k', syn_next_c U (mkBuilt (Some tr) w) m (mkSyn (y_in st') [] []) = Ret ((None, None), st2, k')).
  { exists n2. intros m Hm. apply forget_ret. rewrite syn_next_c_forget. apply Q1, Hm. }
  assert (Lp : forall m, n <= m -> exists k, syn_loop_c U (mkBuilt (Some tr) w) m m (mkSyn s [] []) 0 = Ret (None, st', k)).
  { intros m Hm. apply forget_ret. rewrite syn_loop_c_forget. apply Hn, Hm. }
  destruct o as [|t o].
  - apply Drained_end with (x' := mkSyn (y_in st') [] []). exists n. intros m Hm. destruct (Lp m Hm) as [k E]. exists k.
    split; [|cbn; lia]. unfold syn_next_c. cbn [y_buf y_out q_len q_any length Nat.eqb negb Nat.ltb Nat.leb]. rewrite E. cbn [bind].
    rewrite B', Eo. reflexivity.
  - replace (length (t :: o) * (length (t :: o) - 1) / 2) with (length o + length o * (length o - 1) / 2).
    + apply Drained_next with (x' := mkSyn (y_in st') [] o); [|eapply drain_queue, Q]. exists n. intros m Hm. destruct (Lp m Hm) as [k E].
      exists (k + length o). split; [|lia]. unfold syn_next_c. cbn [y_buf y_out q_len q_any length Nat.eqb negb Nat.ltb Nat.leb]. rewrite E. cbn [bind].
      rewrite B', Eo. unfold q_flushto, q_clear. rewrite app_nil_r. unfold moved. cbn [length q_any q_len Nat.ltb Nat.leb q_pop q_drop skipn bind].
      replace (S (length o) - 1) with (length o) by lia. reflexivity.
    + cbn [length]. replace (S (length o) - 1) with (length o) by lia. destruct (length o) as [|k]; [reflexivity|].
      replace (S (S k) * S k) with (S k * (S k - 1) + S k * 2) by nia. rewrite Nat.div_add by lia. lia.
Qed.

Lemma C47_refutation ms ic ig D b : dictionary_of (key_tokens U scan) ms D -> built_from U scan ms ic ig b ->
  forall c, exists s l o n, Yields s l /\ Yields (SynFilter U None b s) o /\
    Drained (syn_next_c U b) (mkSyn s [] []) o n /\ c * (length l + length o) < n.
Proof.
  intros Dd B c. destruct (C47_lower ms ic ig D b Dd B) as (w & _ & H).
  set (k := 4 * c + 3). set (t := mkToken " " false true false). set (l := repeat t k).
  destruct (H (source l None) l (source_yields l)) as (o & Rw & Yo & Dr).
  assert (o = l) as ->.
  { assert (G : forall k o, rewrites U ic ig D w (repeat t k) o -> o = repeat t k).
    { induction k0 as [|k0 IH]; intros o0 R; inversion R; subst; cbn [repeat].
      - reflexivity.
      - f_equal. apply IH. assumption.
      - f_equal. apply IH. assumption.
      - exfalso. match goal with X : word t |- _ => destruct X as [_ X]; discriminate end. }
    apply G, Rw. }
  exists (source l None), l, l. eexists. split; [apply source_yields|]. split; [exact Yo|]. split; [exact Dr|].
  unfold l. rewrite repeat_length. unfold k.
  replace ((4 * c + 3) * (4 * c + 3 - 1)) with (((4 * c + 3) * (2 * c + 1)) * 2) by nia.
  rewrite Nat.div_mul by lia. nia.
Qed.
End Syn.

(** ** Sigil and contractions: linear *)

Lemma Called_bound {X} step (P : X -> Prop) K :
  (forall fuel x r x' k, P x -> step fuel x = Ret (r, x', k) -> P x' /\ k <= K) ->
  forall x c n, Called step x c n -> P x -> n <= K * c.
Proof.
  intros H x c n C. induction C as [|x fuel r x' k c n E C IH]; intros Px; [lia|].
  destruct (H _ _ _ _ _ Px E) as [Px' Hk]. specialize (IH Px'). nia.
Qed.

Lemma pop_length q t q' : q_pop q = Ret (t, q') -> length q' = length q - 1.
Proof. unfold q_pop. destruct q as [|x q]; [discriminate|]. cbn. intros E. injection E as _ <-. lia. Qed.

Lemma sigil_try_length U sg lg fuel st c tr st' : sigil_try U sg lg fuel st c = Ret (tr, st') -> length (s_out st') <= length (s_out st) + 1.
Proof.
  unfold sigil_try. destruct (negb _); [intros E; injection E as _ <-; lia|].
  destruct (Next fuel (s_in st)) as [[[[t|] [e|]] up]| |]; cbn [bind]; try discriminate; intros E; try (injection E as _ <-; cbn; lia).
  destruct (lg (tvalue t)); injection E as _ <-; cbn [s_out]; [lia|]. unfold q_push. rewrite app_length. cbn. lia.
Qed.

Lemma C47_sigil U sg lg s c n : Called (sigil_next_c U sg lg) (mkSS s None (q_new [])) c n -> n = 0.
Proof.
  intros C. enough (n <= 0 * c) by lia. revert C. intros C.
  eapply (Called_bound _ (fun st => length (s_out st) <= 1)) in C; [exact C| |cbn; lia].
  clear. intros fuel st r st' k L E. unfold sigil_next_c in E. destruct (q_any (s_out st)) eqn:A.
  - destruct (q_pop (s_out st)) as [[t q]| |] eqn:P; try discriminate. cbn [bind] in E. injection E as _ <- <-. cbn [s_out].
    apply pop_length in P. unfold moved. lia.
  - destruct (sigil_next U sg lg fuel st) as [[r1 st1]| |] eqn:Sn; try discriminate. cbn in E. injection E as _ <- <-.
    split; [|lia]. unfold sigil_next in Sn. rewrite A in Sn.
    assert (L0 : length (s_out st) = 0) by (unfold q_any, q_len in A; destruct (s_out st); [reflexivity|discriminate]).
    destruct (Next fuel (s_in st)) as [[[[t|] [e|]] up]| |]; cbn [bind] in Sn; try discriminate; try (injection Sn as _ <-; cbn; lia).
    cbn [s_prev s_in s_out] in Sn.
    destruct (negb _); [injection Sn as _ <-; cbn; lia|].
    destruct (sigil_try U sg lg fuel (mkSS up (s_prev st) (s_out st)) t) as [[[[su hd] er] st2]| |] eqn:T; try discriminate. cbn [bind] in Sn.
    apply sigil_try_length in T. cbn [s_out] in T.
    destruct er; [destruct su; injection Sn as _ <-; lia|]. destruct su; [destruct (q_any (s_out st2))|]; injection Sn as _ <-; cbn [s_out]; lia.
Qed.

Lemma scan_loop_pieces U ps e : forall k fuel acc s accs s',
  ts_next s = ts_next (closure (tokenizer_next U) None None (mkScanner ps e)) ->
  scan_loop (fun l t => l ++ [t]) fuel k acc s = Ret (accs, s') -> length accs <= length acc + length ps.
Proof.
  induction ps as [|p ps IH]; intros k fuel acc s accs s' H E; (destruct k as [|k]; [discriminate|]);
    cbn [scan_loop] in E; unfold Scan, Next in E; rewrite H in E.
  - cbn in E. destruct e; cbn in E; injection E as <- _; lia.
  - cbn [ts_next closure tokenizer_next sc_Scan pending bind] in E.
    destruct (NewToken U p false) as [t|] eqn:N; cbn [set_fields fst snd ts_token ts_err andb bind Token] in E.
    + apply (IH k fuel (acc ++ [t])) in E; [|reflexivity]. rewrite app_length in E. cbn in *. lia.
    + injection E as <- _. lia.
Qed.

Lemma tryExpansion_length U scan ms K fuel out t ic f err out' :
  (forall k e, In (k, e) ms -> length (pending (scan (mkReader e None))) <= K) ->
  tryExpansion U scan ms fuel out t ic = Ret (f, err, out') -> length out' <= length out + (if f then K else 0).
Proof.
  intros H E. unfold tryExpansion in E. destruct (assoc _ ms) as [x|] eqn:As.
  - assert (I : exists k, In (k, x) ms).
    { revert As. clear. generalize (if ic then strings_ToLower U (tvalue t) else tvalue t). intros key.
      induction ms as [|[a b] ms IH]; cbn; [discriminate|]. destruct (seqb key a).
      - intros E. injection E as ->. eauto.
      - intros E. destruct (IH E) as [k I]. eauto. }
    destruct I as [k I]. specialize (H k x I). unfold ToSlice in E.
    destruct (scan_loop _ fuel fuel [] (TokenizeString U scan x)) as [[accs s']| |] eqn:SL; try discriminate. cbn [bind] in E.
    destruct (scan (mkReader x None)) as [ps pe] eqn:Sc.
    apply (scan_loop_pieces U ps pe) in SL; [|unfold TokenizeString, Tokenize, NewTokenStream; rewrite Sc; reflexivity]. cbn [length pending] in *.
    destruct (Err s') as [e|]; cbn [bind] in E; injection E as <- _ <-; [lia|]. unfold q_push. rewrite app_length. lia.
  - injection E as <- _ <-. lia.
Qed.

Lemma C47_contractions U scan ms K :
  (forall k e, In (k, e) ms -> length (pending (scan (mkReader e None))) <= K) ->
  forall s c n, Called (contractions_next_c U scan ms) (mkCS s (q_new [])) c n -> n <= K * c.
Proof.
  intros H s c n C.
  eapply (Called_bound _ (fun st => length (c_out st) <= K)) in C; [exact C| |cbn; lia].
  clear - H. intros fuel st r st' k L E. unfold contractions_next_c in E. destruct (q_any (c_out st)) eqn:A.
  - destruct (q_pop (c_out st)) as [[t q]| |] eqn:P; try discriminate. cbn [bind] in E. injection E as _ <- <-. cbn [c_out].
    apply pop_length in P. unfold moved. lia.
  - assert (L0 : length (c_out st) = 0) by (unfold q_any, q_len in A; destruct (c_out st); [reflexivity|discriminate]).
    destruct (Next fuel (c_in st)) as [[[[t|] [e|]] up]| |]; cbn [bind] in E; try discriminate; try (injection E as _ <- <-; cbn; lia).
    destruct (tryExpansion U scan ms fuel (c_out st) t false) as [[[f er] o1]| |] eqn:T; try discriminate. cbn [bind] in E.
    apply (tryExpansion_length _ _ _ K) in T; [|exact H].
    destruct er; [injection E as _ <- <-; cbn [c_out]; destruct f; lia|].
    destruct f; cbn [bind] in E.
    + destruct (q_any o1).
      * destruct (q_pop o1) as [[t' q]| |] eqn:P; try discriminate. cbn [bind] in E. injection E as _ <- <-. apply pop_length in P.
        unfold moved. cbn [c_out]. lia.
      * injection E as _ <- <-. cbn [c_out]. lia.
    + destruct (tryExpansion U scan ms fuel o1 t true) as [[[f er] o2]| |] eqn:T2; try discriminate. cbn [bind] in E.
      apply (tryExpansion_length _ _ _ K) in T2; [|exact H].
      assert (L2 : length o2 <= K) by (destruct f; lia).
      destruct er; [injection E as _ <- <-; cbn [c_out]; lia|].
      destruct (q_any o2).
      * destruct (q_pop o2) as [[t' q]| |] eqn:P; try discriminate. cbn [bind] in E. injection E as _ <- <-. apply pop_length in P.
        unfold moved. cbn [c_out]. lia.
      * injection E as _ <- <-. cbn [c_out]. lia.
Qed.

From Verif Require Import Words ContractionsTable.
Lemma C47_example_table : forall k e, In (k, e) contraction_mappings -> length (pending (words_scan (mkReader e None))) <= 5.
Proof.
  assert (H : forallb (fun p => Nat.leb (length (pending (words_scan (mkReader (snd p) None)))) 5) contraction_mappings = true) by (vm_compute; reflexivity).
  intros k e I. rewrite forallb_forall in H. specialize (H (k, e) I). cbn [snd] in H. apply Nat.leb_le, H.
Qed.
