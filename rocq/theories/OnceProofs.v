(** * OnceProofs: invariant of the concurrent calls of a synonyms filter. *)

From Coq Require Import Permutation.
From Verif Require Import Base Utf8 Unicode Token Stream StreamSpec Queue Tokenizer Trie Synonyms SynSpec ChainSpec FilterSpec
  StreamProofs FilterProofs TrieProofs SynProofs BuildProofs DictProofs Once OnceSpec.

Section WithUnicode.
Variable U : unicode.
Variable scan : oracle.
Variable c : config.

Notation step := (step U scan).
Notation runs := (runs U scan).
Notation may := (may_build U scan c).

Definition outside (p : pc) : Prop := p = Idle \/ p = AtCheck \/ p = AtLock.

(** Before the build. *)
Definition phaseA (s : state) : Prop :=
  done s = false /\ builds s = 0 /\ config_ s = Some c /\ trie_ s = None /\ maxWords_ s = 0 /\
  (forall i, outside (calls s i) \/ (lock s = Some i /\ (calls s i = AtRecheck \/ calls s i = AtBuild))) /\
  (forall i, lock s = Some i -> ~ outside (calls s i)).

(** Between the build and the store of done; [h] is the builder. *)
Definition writer (s : state) (p : pc) (err : option error) (b : built) : Prop :=
  match err with
  | Some e => p = AtSetDone (Some e) /\ trie_ s = None /\ maxWords_ s = 0
  | None => exists tr n, b = mkBuilt (Some tr) n /\
    ((p = AtWriteTrie tr n /\ trie_ s = None /\ maxWords_ s = 0) \/
     (p = AtWriteMax n /\ trie_ s = Some tr /\ maxWords_ s = 0) \/
     (p = AtKillConfig /\ trie_ s = Some tr /\ maxWords_ s = n) \/
     (p = AtSetDone None /\ trie_ s = Some tr /\ maxWords_ s = n))
  end.

Definition phaseB (h : nat) (err : option error) (b : built) (s : state) : Prop :=
  done s = false /\ builds s = 1 /\ lock s = Some h /\ may (err, b) /\
  writer s (calls s h) err b /\ (forall i, i <> h -> outside (calls s i)).

(** Afterwards. *)
Definition phaseC (w : nat) (err : option error) (b : built) (s : state) : Prop :=
  done s = true /\ builds s = 1 /\ may (err, b) /\
  match err with
  | None => trie_ s = b_trie b /\ maxWords_ s = b_maxWords b /\ b_trie b <> None
  | Some _ => trie_ s = None /\ maxWords_ s = 0
  end /\
  (forall i, outside (calls s i) \/ (exists e, calls s i = Made e /\ (if Nat.eqb i w then e = err else e = None)) \/
     (lock s = Some i /\ (calls s i = AtRecheck /\ i <> w \/
        exists e, calls s i = AtUnlock e /\ (if Nat.eqb i w then e = err else e = None)))) /\
  (forall i, lock s = Some i -> calls s i = AtRecheck \/ exists e, calls s i = AtUnlock e) /\
  ~ outside (calls s w).

Definition Inv (s : state) : Prop :=
  phaseA s \/ (exists h err b, phaseB h err b s) \/ (exists w err b, phaseC w err b s).

Lemma upd_same m i p : upd m i p i = p.
Proof. unfold upd. rewrite Nat.eqb_refl. reflexivity. Qed.
Lemma upd_other m i p j : j <> i -> upd m i p j = m j.
Proof. unfold upd. intros H. destruct (Nat.eqb_spec j i); congruence. Qed.

Lemma init_inv : Inv (init c).
Proof. left. repeat split; cbn; try discriminate. intros i. left. left. reflexivity. Qed.

Ltac other i j := destruct (Nat.eq_dec j i) as [->|?Hne]; [rewrite ?upd_same in *|rewrite ?(upd_other _ i _ j) in * by assumption].

Ltac out := unfold outside in *; intuition congruence.

Lemma step_A i s s' : phaseA s -> step i s s' -> phaseA s' \/ exists err b, phaseB i err b s'.
Proof.
  intros (D & B & C & T & M & I & L) St.
  destruct St as [d l c0 t n b m H|l c0 t n b m H|l c0 t n b m H|d c0 t n b m H|l c0 t n b m H|l c0 t n b m H
    |d l c0 t n b m tr k H MB|d l c0 t n b m e b0 H MB|d l t n b m H|d l c0 t n b m tr k H|d l c0 t n b m k H
    |d l c0 t n b m H|d l c0 t n b m e H|d l c0 t n b m e H];
    cbn [done lock config_ trie_ maxWords_ builds calls] in *; subst;
    try discriminate; try (specialize (I i); rewrite H in I; unfold outside in I; exfalso; intuition congruence).
  - left. repeat split; auto; cbn.
    + intros j. other i j; [left; out|apply I].
    + intros j E. other i j; [specialize (L i E); rewrite H in L; exfalso; apply L; out|apply L, E].
  - left. repeat split; auto; cbn.
    + intros j. other i j; [left; out|apply I].
    + intros j E. other i j; [specialize (L i E); rewrite H in L; exfalso; apply L; out|apply L, E].
  - left. repeat split; auto; cbn.
    + intros j. other i j; [right; auto|]. destruct (I j) as [O|[E _]]; [left; exact O|discriminate].
    + intros j E. injection E as <-. rewrite upd_same. out.
  - left. repeat split; auto; cbn.
    + intros j. other i j; [right; split; [|auto]|apply I]. destruct (I i) as [O|[E _]]; [rewrite H in O; out|exact E].
    + intros j E. other i j; [out|apply L, E].
  - injection C as ->. right. exists None, (mkBuilt (Some tr) k). assert (Lk : l = Some i).
    { destruct (I i) as [O|[E _]]; [rewrite H in O; out|exact E]. }
    repeat split; auto; cbn.
    + exists tr, k. split; [reflexivity|]. rewrite upd_same. auto.
    + intros j Hne. rewrite upd_other by exact Hne. destruct (I j) as [O|[E _]]; [exact O|congruence].
  - injection C as ->. right. exists (Some e), b0. assert (Lk : l = Some i).
    { destruct (I i) as [O|[E _]]; [rewrite H in O; out|exact E]. }
    repeat split; auto; cbn.
    + rewrite upd_same. reflexivity.
    + intros j Hne. rewrite upd_other by exact Hne. destruct (I j) as [O|[E _]]; [exact O|congruence].
Qed.

Lemma step_B i s s' h err b : phaseB h err b s -> step i s s' -> phaseB h err b s' \/ phaseC h err b s'.
Proof.
  intros (D & B & L & M & W & O) St.
  assert (Hi : i = h \/ outside (calls s i)) by (destruct (Nat.eq_dec i h); auto).
  destruct St as [d l c0 t n b1 m H|l c0 t n b1 m H|l c0 t n b1 m H|d c0 t n b1 m H|l c0 t n b1 m H|l c0 t n b1 m H
    |d l c0 t n b1 m tr k H MB|d l c0 t n b1 m e b0 H MB|d l t n b1 m H|d l c0 t n b1 m tr k H|d l c0 t n b1 m k H
    |d l c0 t n b1 m H|d l c0 t n b1 m e H|d l c0 t n b1 m e H];
    cbn [done lock config_ trie_ maxWords_ builds calls] in *; subst; try discriminate;
    (destruct Hi as [->|Hi]; [unfold writer in W; rewrite H in W; cbn [trie_ maxWords_] in W;
       destruct err as [e0|]; [destruct W as (W1 & W2 & W3)|destruct W as (tr0 & n0 & -> & W)]|
       rewrite H in Hi; unfold outside in Hi; try (exfalso; intuition congruence)]);
    try (exfalso; intuition congruence).
  - left. assert (i <> h) by (intros ->; unfold writer in W; rewrite H in W; destruct err; [intuition congruence|
      destruct W as (? & ? & _ & W); intuition congruence]).
    repeat split; auto; cbn.
    + rewrite upd_other by auto. exact W.
    + intros j Hne. other i j; [out|auto].
  - left. assert (i <> h) by (intros ->; unfold writer in W; rewrite H in W; destruct err; [intuition congruence|
      destruct W as (? & ? & _ & W); intuition congruence]).
    repeat split; auto; cbn.
    + rewrite upd_other by auto. exact W.
    + intros j Hne. other i j; [out|auto].
  - left. destruct W as [W|[W|[W|W]]]; try (exfalso; intuition congruence). destruct W as (E & -> & ->). injection E as -> ->.
    repeat split; auto; cbn.
    + exists tr0, n0. split; [reflexivity|]. rewrite upd_same. tauto.
    + intros j Hne. rewrite upd_other by exact Hne. auto.
  - left. destruct W as [W|[W|[W|W]]]; try (exfalso; intuition congruence). destruct W as (E & -> & ->). injection E as ->.
    repeat split; auto; cbn.
    + exists tr0, n0. split; [reflexivity|]. rewrite upd_same. tauto.
    + intros j Hne. rewrite upd_other by exact Hne. auto.
  - left. destruct W as [W|[W|[W|W]]]; try (exfalso; intuition congruence). destruct W as (E & -> & ->).
    repeat split; auto; cbn.
    + exists tr0, n0. split; [reflexivity|]. rewrite upd_same. tauto.
    + intros j Hne. rewrite upd_other by exact Hne. auto.
  - right. injection W1 as ->. repeat split; auto; cbn.
    + intros j. other h j; [|left; auto]. right; right. split; [reflexivity|]. right. exists (Some e0). rewrite Nat.eqb_refl. auto.
    + intros j E. injection E as <-. rewrite upd_same. eauto.
    + rewrite upd_same. out.
  - right. destruct W as [W|[W|[W|W]]]; try (exfalso; intuition congruence). destruct W as (E & -> & ->). injection E as ->.
    repeat split; auto; cbn; try discriminate.
    + intros j. other h j; [|left; auto]. right; right. split; [reflexivity|]. right. exists None. rewrite Nat.eqb_refl. auto.
    + intros j E. injection E as <-. rewrite upd_same. eauto.
    + rewrite upd_same. out.
Qed.

Lemma step_C i s s' w err b : phaseC w err b s -> step i s s' -> phaseC w err b s'.
Proof.
  intros (D & B & M & F & I & L & W) St.
  destruct St as [d l c0 t n b1 m H|l c0 t n b1 m H|l c0 t n b1 m H|d c0 t n b1 m H|l c0 t n b1 m H|l c0 t n b1 m H
    |d l c0 t n b1 m tr k H MB|d l c0 t n b1 m e b0 H MB|d l t n b1 m H|d l c0 t n b1 m tr k H|d l c0 t n b1 m k H
    |d l c0 t n b1 m H|d l c0 t n b1 m e H|d l c0 t n b1 m e H];
    cbn [done lock config_ trie_ maxWords_ builds calls] in *; subst; try discriminate;
    try (exfalso; specialize (I i); rewrite H in I; unfold outside in I;
         destruct I as [I|[(e0 & I & _)|(_ & [[I _]|(e0 & I & _)])]]; intuition congruence).
  - (* call *)
    assert (i <> w) by (intros ->; apply W; rewrite H; out).
    split; [auto|]. split; [auto|]. split; [auto|]. split; [exact F|]. cbn. split; [|split].
    + intros j. other i j; [left; out|apply I].
    + intros j E. other i j; [|auto]. destruct (L i E) as [C|(e & C)]; congruence.
    + rewrite upd_other by auto. exact W.
  - (* fast *)
    assert (i <> w) by (intros ->; apply W; rewrite H; out).
    split; [auto|]. split; [auto|]. split; [auto|]. split; [exact F|]. cbn. split; [|split].
    + intros j. other i j; [right; left; exists None; split; [reflexivity|]; destruct (Nat.eqb_spec i w); congruence|apply I].
    + intros j E. other i j; [|auto]. destruct (L i E) as [C|(e & C)]; congruence.
    + rewrite upd_other by auto. exact W.
  - (* lock *)
    assert (i <> w) by (intros ->; apply W; rewrite H; out).
    split; [auto|]. split; [auto|]. split; [auto|]. split; [exact F|]. cbn. split; [|split].
    + intros j. other i j; [right; right; split; [reflexivity|]; left; auto|].
      destruct (I j) as [O|[O|[O _]]]; [left; exact O|right; left; exact O|discriminate].
    + intros j E. injection E as <-. rewrite upd_same. auto.
    + rewrite upd_other by auto. exact W.
  - (* skip *)
    assert (Li : l = Some i /\ i <> w).
    { specialize (I i). rewrite H in I. unfold outside in I. destruct I as [I|[(e & I & _)|(E & [[_ I]|(e & I & _)])]];
        [intuition congruence|congruence|auto|congruence]. }
    destruct Li as [-> Nw].
    split; [auto|]. split; [auto|]. split; [auto|]. split; [exact F|]. cbn. split; [|split].
    + intros j. other i j; [|apply I]. right; right. split; [reflexivity|]. right. exists None. split; [reflexivity|].
      destruct (Nat.eqb_spec i w); congruence.
    + intros j E. injection E as <-. rewrite upd_same. eauto.
    + rewrite upd_other by auto. exact W.
  - (* unlock *)
    assert (Li : l = Some i /\ (if Nat.eqb i w then e = err else e = None)).
    { specialize (I i). rewrite H in I. unfold outside in I. destruct I as [I|[(e0 & I & _)|(E & [[I _]|(e0 & I & Q)])]];
        [intuition congruence|congruence|congruence|]. injection I as <-. auto. }
    destruct Li as [-> Ei].
    split; [auto|]. split; [auto|]. split; [auto|]. split; [exact F|]. cbn. split; [|split].
    + intros j. other i j; [right; left; eauto|].
      destruct (I j) as [O|[O|[O _]]]; [left; exact O|right; left; exact O|congruence].
    + intros j E. discriminate.
    + other i w; [out|exact W].
Qed.

Lemma step_inv i s s' : Inv s -> step i s s' -> Inv s'.
Proof.
  intros [A|[(h & err & b & B)|(w & err & b & C)]] St.
  - destruct (step_A i s s' A St) as [A'|(err & b & B)]; [left; exact A'|right; left; eauto].
  - destruct (step_B i s s' h err b B St) as [B'|C]; [right; left; eauto|right; right; eauto].
  - right; right. eauto using step_C.
Qed.

Lemma runs_inv s s' : runs s s' -> Inv s -> Inv s'.
Proof. induction 1; eauto using step_inv. Qed.

Lemma runs_C w err b s s' : runs s s' -> phaseC w err b s -> phaseC w err b s'.
Proof. induction 1; eauto using step_C. Qed.

Lemma made_C s i e : Inv s -> calls s i = Made e -> exists w err b, phaseC w err b s.
Proof.
  intros [A|[(h & err & b & B)|C]] E; [| |exact C].
  - exfalso. destruct A as (_ & _ & _ & _ & _ & I & _). specialize (I i). rewrite E in I. unfold outside in I. intuition congruence.
  - exfalso. destruct B as (_ & _ & _ & _ & W & O). destruct (Nat.eq_dec i h) as [->|N].
    + unfold writer in W. rewrite E in W. destruct err; [intuition congruence|]. destruct W as (? & ? & _ & W). intuition congruence.
    + specialize (O i N). rewrite E in O. unfold outside in O. intuition congruence.
Qed.

(** All keys can be tokenized, in any order, so that every build succeeds. *)
Hypothesis SC : scanner_ok scan.
Hypothesis CS : uIsSpace U 44 = false.

Lemma may_total : exists r, may r.
Proof.
  destruct (first_bad scan (cf_mappings c)) as [F|(ms1 & k & x & ms2 & e & E & F & B)].
  - destruct (build_ok U scan SC CS (cf_mappings c) (cf_ignoreCase c) (cf_ignoreRunes c) F) as (D & tr & n & _ & R & _).
    eexists. exists (cf_mappings c). split; [reflexivity|exact R].
  - pose proof (build_bad U scan SC CS ms1 k x ms2 e (cf_ignoreCase c) (cf_ignoreRunes c) F B) as R.
    eexists. exists (cf_mappings c). split; [reflexivity|]. rewrite E. exact R.
Qed.

Lemma may_fine : (forall k x, In (k, x) (cf_mappings c) -> serr (scan (mkReader k None)) = None) ->
  forall err b, may (err, b) -> err = None.
Proof.
  intros F err b (ms & P & R).
  destruct (build_ok U scan SC CS ms (cf_ignoreCase c) (cf_ignoreRunes c)) as (D & tr & n & _ & R2 & _).
  { intros k x I. apply (F k x). eapply Permutation_in; [symmetry; exact P|exact I]. }
  pose proof (Returns_inj _ _ _ R R2) as E. congruence.
Qed.

Lemma may_bad k x e : In (k, x) (cf_mappings c) -> serr (scan (mkReader k None)) = Some e ->
  forall err b, may (err, b) -> (exists e', err = Some e') /\ b = mkBuilt None 0.
Proof.
  intros I B err b (ms & P & R).
  destruct (first_bad scan ms) as [F|(ms1 & k' & x' & ms2 & e' & -> & F & B')].
  - exfalso. specialize (F k x (Permutation_in _ P I)). unfold seg_fine in F. congruence.
  - pose proof (Returns_inj _ _ _ R (build_bad U scan SC CS ms1 k' x' ms2 e' _ _ F B')) as E. injection E as -> ->. eauto.
Qed.

Lemma may_shape err b : may (err, b) -> match err with None => exists tr n, b = mkBuilt (Some tr) n | Some _ => b = mkBuilt None 0 end.
Proof.
  intros (ms & P & R). destruct (first_bad scan ms) as [F|(ms1 & k' & x' & ms2 & e' & -> & F & B')].
  - destruct (build_ok U scan SC CS ms (cf_ignoreCase c) (cf_ignoreRunes c) F) as (D & tr & n & _ & R2 & _).
    pose proof (Returns_inj _ _ _ R R2) as E. injection E as -> ->. eauto.
  - pose proof (Returns_inj _ _ _ R (build_bad U scan SC CS ms1 k' x' ms2 e' _ _ F B')) as E. injection E as -> ->. reflexivity.
Qed.

(** ** C43 *)

Lemma C43_lemma : (forall k x, In (k, x) (cf_mappings c) -> serr (scan (mkReader k None)) = None) ->
  forall s, runs (init c) s ->
  builds s <= 1 /\ (forall i, calls s i <> Crashed) /\
  (forall i, writing (calls s i) -> forall j, j <> i -> ~ writing (calls s j) /\ ~ reading (calls s j)) /\
  (forall i e, calls s i = Made e ->
     builds s = 1 /\ e = None /\
     exists ms b, Permutation (cf_mappings c) ms /\ built_from U scan ms (cf_ignoreCase c) (cf_ignoreRunes c) b /\
       forall s', runs s s' -> trie_ s' = b_trie b /\ maxWords_ s' = b_maxWords b /\
         stream_in U s' e = SynFilter U None b).
Proof.
  intros F s R. pose proof (runs_inv _ _ R init_inv) as I.
  split; [|split; [|split]].
  - destruct I as [(_ & B & _)|[(h & err & b & _ & B & _)|(w & err & b & _ & B & _)]]; lia.
  - intros i E. destruct I as [(_ & _ & _ & _ & _ & I & _)|[(h & err & b & _ & _ & _ & _ & W & O)|(w & err & b & _ & _ & _ & _ & I & _)]].
    + specialize (I i). rewrite E in I. unfold outside in I. intuition congruence.
    + destruct (Nat.eq_dec i h) as [->|N].
      * unfold writer in W. rewrite E in W. destruct err; [intuition congruence|]. destruct W as (? & ? & _ & W). intuition congruence.
      * specialize (O i N). rewrite E in O. unfold outside in O. intuition congruence.
    + specialize (I i). rewrite E in I. unfold outside in I.
      destruct I as [I|[(e0 & I & _)|(_ & [[I _]|(e0 & I & _)])]]; intuition congruence.
  - intros i Wi j N. destruct I as [(_ & _ & _ & _ & _ & I & _)|[(h & err & b & _ & _ & _ & _ & W & O)|(w & err & b & _ & _ & _ & _ & I & _)]].
    + exfalso. specialize (I i). unfold outside, writing in *. destruct Wi as [(? & ? & E)|[(? & E)|E]]; rewrite E in I; intuition congruence.
    + assert (i = h) as ->.
      { destruct (Nat.eq_dec i h); [assumption|]. exfalso. specialize (O i n). unfold outside, writing in *.
        destruct Wi as [(? & ? & E)|[(? & E)|E]]; rewrite E in O; intuition congruence. }
      specialize (O j N). unfold writing, reading, outside in *.
      split; [intros [(? & ? & E)|[(? & E)|E]]|intros [E|(? & E)]]; rewrite E in O; intuition congruence.
    + exfalso. specialize (I i). unfold outside, writing in *.
      destruct Wi as [(? & ? & E)|[(? & E)|E]]; rewrite E in I;
        destruct I as [I|[(e0 & I & _)|(_ & [[I _]|(e0 & I & _)])]]; intuition congruence.
  - intros i e E. destruct (made_C s i e I E) as (w & err & b & C).
    pose proof C as (D & B & M & Fi & J & _). split; [exact B|].
    pose proof (may_fine F _ _ M) as ->.
    assert (En : e = None).
    { specialize (J i). rewrite E in J. unfold outside in J. destruct J as [J|[(e0 & J & K)|(_ & [[J _]|(e0 & J & _)])]]; try congruence.
      - intuition congruence.
      - injection J as <-. destruct (Nat.eqb i w); exact K. }
    split; [exact En|]. destruct M as (ms & P & Bu). exists ms, b. split; [exact P|]. split; [exact Bu|].
    intros s' R'. destruct (runs_C _ _ _ _ _ R' C) as (_ & _ & _ & (T & Mx & _) & _).
    split; [exact T|]. split; [exact Mx|]. unfold stream_in. rewrite T, Mx, En. destruct b; reflexivity.
Qed.

(** No deadlock: while some call has not returned, some call can take a step. *)
Lemma C43_progress_lemma : forall s, runs (init c) s ->
  forall i, calls s i <> Idle -> (forall e, calls s i <> Made e) -> exists j s', calls s j <> Idle /\ step j s s'.
Proof.
  intros s R i NI NM. pose proof (runs_inv _ _ R init_inv) as I. clear R.
  destruct s as [d l c0 t n b m]. cbn [calls] in *.
  destruct I as [(D & B & C & T & M & I & L)|[(h & err & b1 & D & B & L & M & W & O)|(w & err & b1 & D & B & M & F & I & L & W)]];
    cbn [done lock config_ trie_ maxWords_ builds calls] in *; subst.
  - assert (G : forall k, l = Some k -> exists j s', m j <> Idle /\ step j (mkState false l (Some c) None 0 0 m) s').
    { intros k Lk. destruct (I k) as [O|[_ [E|E]]]; [exfalso; apply (L k Lk), O| |].
      - exists k. eexists. split; [congruence|]. apply S_enter. exact E.
      - destruct may_total as [[[e|] b0] Mr].
        + exists k. eexists. split; [congruence|]. eapply S_build_err; eassumption.
        + destruct (may_shape _ _ Mr) as (tr & n & ->). exists k. eexists. split; [congruence|]. eapply S_build_ok; eassumption. }
    destruct (I i) as [[E|[E|E]]|[Lk _]]; [congruence| | |exact (G i Lk)].
    + exists i. eexists. split; [congruence|]. apply S_slow. exact E.
    + destruct l as [k|]; [apply (G k eq_refl)|]. exists i. eexists. split; [congruence|]. apply S_lock. exact E.
  - exists h. unfold writer in W. cbn [trie_ maxWords_] in W. destruct err as [e|].
    + destruct W as (E & _). eexists. split; [congruence|]. eapply S_done. exact E.
    + destruct W as (tr & k & _ & [(E & _)|[(E & _)|[(E & _)|(E & _)]]]); eexists; (split; [congruence|]);
        [eapply S_trie|eapply S_max|eapply S_kill|eapply S_done]; exact E.
  - assert (G : forall k, l = Some k -> exists j s', m j <> Idle /\ step j (mkState true l c0 t n 1 m) s').
    { intros k Lk. destruct (L k Lk) as [E|(e & E)]; exists k; eexists; (split; [congruence|]); [apply S_skip|eapply S_unlock]; exact E. }
    destruct (I i) as [[E|[E|E]]|[(e & E & _)|[Lk _]]]; [congruence| | |exfalso; apply (NM e E)|exact (G i Lk)].
    + exists i. eexists. split; [congruence|]. apply S_fast. exact E.
    + destruct l as [k|]; [apply (G k eq_refl)|]. exists i. eexists. split; [congruence|]. apply S_lock. exact E.
Qed.

(** ** C44 *)

(** In every run with a failing key exactly one stream knows of the error. *)
Lemma C44_lemma k x e0 : In (k, x) (cf_mappings c) -> serr (scan (mkReader k None)) = Some e0 ->
  forall s, runs (init c) s -> forall i e, calls s i = Made e ->
  (forall s', runs s s' -> stream_in U s' e = SynFilter U e (mkBuilt None 0)) /\
  (forall j e', j <> i -> calls s j = Made e' -> e = None \/ e' = None).
Proof.
  intros I B s R i e E. pose proof (runs_inv _ _ R init_inv) as Iv. destruct (made_C s i e Iv E) as (w & err & b & C).
  pose proof C as (_ & _ & M & _ & J & _). destruct (may_bad _ _ _ I B _ _ M) as ((e1 & ->) & ->).
  split.
  - intros s' R'. destruct (runs_C _ _ _ _ _ R' C) as (_ & _ & _ & (T & Mx) & _). unfold stream_in. rewrite T, Mx. reflexivity.
  - intros j e' N E'.
    assert (G : forall i e, calls s i = Made e -> if Nat.eqb i w then e = Some e1 else e = None).
    { intros i0 e2 E2. specialize (J i0). rewrite E2 in J. unfold outside in J.
      destruct J as [J|[(e3 & J & K)|(_ & [[J _]|(e3 & J & _)])]]; try congruence; [intuition congruence|].
      injection J as <-. exact K. }
    pose proof (G _ _ E) as G1. pose proof (G _ _ E') as G2.
    destruct (Nat.eqb_spec i w), (Nat.eqb_spec j w); auto. congruence.
Qed.
End WithUnicode.

(** The stream of an unlucky caller: no error, no dictionary. *)
Section Nil.
Variable U : unicode.

Lemma fill_scan_pulls lead : forall s w s1 out, Pulls s (lead ++ [w]) s1 ->
  Forall (fun t => nonword t = true) lead -> nonword w = false ->
  exists up, Returns2 (fun fuel k => fill_scan fuel k s [] out) (up, [w], out ++ lead) /\ Err up = None.
Proof.
  induction lead as [|t l IH]; intros s w s1 out P F W; cbn [app] in P; inversion P as [|s0 t0 s2 l0 s3 N P2]; subst;
    destruct (Scan_token _ _ _ N) as [n Hn].
  - eexists. split.
    + eapply (Returns2_step _ _ _ n); [|apply Returns2_const]. intros fuel k Hf. cbn [fill_scan]. rewrite Hn by lia.
      cbn [bind Token ts_token set_fields fst]. unfold nonword in W. rewrite W. rewrite app_nil_r. reflexivity.
    + reflexivity.
  - inversion F as [|? ? Ft Fl]; subst.
    destruct (IH (set_fields (Some t, None) s2) w s1 (q_push out [t])) as (up & R & E); [|exact Fl|exact W|].
    { inversion P2 as [s0 E1 E2|s0 t0 s4 l0 s5 N2 P3]; subst; [destruct l; discriminate|]. econstructor; [|exact P3]. exact N2. }
    exists up. split; [|exact E]. replace (out ++ t :: l) with (q_push out [t] ++ l) by (unfold q_push; rewrite <- app_assoc; reflexivity).
    eapply (Returns2_step _ _ _ n); [|exact R]. intros fuel k Hf. cbn [fill_scan]. rewrite Hn by lia.
    cbn [bind Token ts_token set_fields fst]. unfold nonword in Ft. rewrite Ft. reflexivity.
Qed.

Lemma nil_panics s lead w s1 : Pulls s (lead ++ [w]) s1 -> Forall (fun t => ~ word t) lead -> word w ->
  Panics (fun fuel => Next fuel (SynFilter U None (mkBuilt None 0) s)).
Proof.
  intros P F W.
  assert (F' : Forall (fun t => nonword t = true) lead) by (eapply Forall_impl; [|exact F]; intros t; apply nonword_spec).
  assert (W' : nonword w = false).
  { destruct (nonword w) eqn:E; [|reflexivity]. apply nonword_spec in E. contradiction. }
  destruct (fill_scan_pulls lead s w s1 [] P F' W') as (up & [n R] & E).
  exists (Datatypes.S n). intros m Hm. destruct m as [|m]; [lia|].
  unfold SynFilter, NewTokenStream, Next. cbn [ts_next closure].
  assert (L : syn_loop U (mkBuilt None 0) (S m) (S m) (mkSyn s (q_new []) (q_new [])) = Panic).
  { cbn [syn_loop]. unfold fill. cbn [y_buf y_out y_in b_maxWords q_new lead_loop].
    destruct w as [v p sp le]. destruct W as [Wp Ws]. cbn in Wp, Ws. subst p sp.
    unfold q_drop. cbn [length Nat.leb Nat.ltb skipn bind q_len Nat.eqb]. rewrite R by lia. cbn [bind]. rewrite E.
    cbn. destruct m; reflexivity. }
  unfold syn_closure, syn_next. cbn [y_buf y_out q_new q_len q_any length Nat.eqb negb]. 
  rewrite L. reflexivity.
Qed.
End Nil.

(** ** Runs with two calls, one after the other or racing *)
Section Two.
Variable U : unicode.
Variable scan : oracle.
Variable c : config.
Hypothesis SC : scanner_ok scan.
Hypothesis CS : uIsSpace U 44 = false.

Ltac go := eapply R_step; [|].

Lemma runs_trans s1 s2 s3 : runs U scan s1 s2 -> runs U scan s2 s3 -> runs U scan s1 s3.
Proof. induction 1; [auto|]. intros. econstructor; eauto. Qed.

Lemma two_calls err b : may_build U scan c (err, b) ->
  exists s, runs U scan (init c) s /\ calls s 0 = Made err /\ calls s 1 = Made None.
Proof.
  intros M. pose proof (may_shape U scan c SC CS err b M) as Sh. destruct err as [e|].
  - eexists. split; [|split].
    { eapply (R_step _ _ _ 0); [apply S_call; reflexivity|].
      eapply (R_step _ _ _ 1); [apply S_call; reflexivity|].
      eapply (R_step _ _ _ 1); [apply S_slow; reflexivity|].
      eapply (R_step _ _ _ 0); [apply S_slow; reflexivity|].
      eapply (R_step _ _ _ 0); [apply S_lock; reflexivity|].
      eapply (R_step _ _ _ 0); [apply S_enter; reflexivity|].
      eapply (R_step _ _ _ 0); [eapply S_build_err; [reflexivity|exact M]|].
      eapply (R_step _ _ _ 0); [eapply S_done; reflexivity|].
      eapply (R_step _ _ _ 0); [eapply S_unlock; reflexivity|].
      eapply (R_step _ _ _ 1); [apply S_lock; reflexivity|].
      eapply (R_step _ _ _ 1); [apply S_skip; reflexivity|].
      eapply (R_step _ _ _ 1); [eapply S_unlock; reflexivity|].
      apply R_here. }
    + reflexivity.
    + reflexivity.
  - destruct Sh as (tr & n & ->). eexists. split; [|split].
    { eapply (R_step _ _ _ 0); [apply S_call; reflexivity|].
      eapply (R_step _ _ _ 1); [apply S_call; reflexivity|].
      eapply (R_step _ _ _ 1); [apply S_slow; reflexivity|].
      eapply (R_step _ _ _ 0); [apply S_slow; reflexivity|].
      eapply (R_step _ _ _ 0); [apply S_lock; reflexivity|].
      eapply (R_step _ _ _ 0); [apply S_enter; reflexivity|].
      eapply (R_step _ _ _ 0); [eapply S_build_ok; [reflexivity|exact M]|].
      eapply (R_step _ _ _ 0); [eapply S_trie; reflexivity|].
      eapply (R_step _ _ _ 0); [eapply S_max; reflexivity|].
      eapply (R_step _ _ _ 0); [eapply S_kill; reflexivity|].
      eapply (R_step _ _ _ 0); [eapply S_done; reflexivity|].
      eapply (R_step _ _ _ 0); [eapply S_unlock; reflexivity|].
      eapply (R_step _ _ _ 1); [apply S_lock; reflexivity|].
      eapply (R_step _ _ _ 1); [apply S_skip; reflexivity|].
      eapply (R_step _ _ _ 1); [eapply S_unlock; reflexivity|].
      apply R_here. }
    + reflexivity.
    + reflexivity.
Qed.

Lemma C44_refutation k x e0 : In (k, x) (cf_mappings c) -> serr (scan (mkReader k None)) = Some e0 ->
  exists s e, runs U scan (init c) s /\ calls s 0 = Made (Some e) /\ calls s 1 = Made None /\
    forall s' src lead w src1, runs U scan s s' ->
      Pulls src (lead ++ [w]) src1 -> Forall (fun t => ~ word t) lead -> word w ->
      Panics (fun fuel => Next fuel (stream_in U s' None src)).
Proof.
  intros I B. destruct (may_total U scan c SC CS) as [[err b] M].
  destruct (may_bad U scan c SC CS k x e0 I B err b M) as [(e & ->) ->].
  destruct (two_calls (Some e) _ M) as (s & R & E0 & E1). exists s, e. split; [exact R|]. split; [exact E0|]. split; [exact E1|].
  intros s' src lead w src1 R' P F W.
  destruct (C44_lemma U scan c SC CS k x e0 I B s R 1 None E1) as [G _]. rewrite (G s' R'). eapply nil_panics; eassumption.
Qed.

(** The call that ran build reports the error on every Next. *)
Lemma C44_partial k x e0 : In (k, x) (cf_mappings c) -> serr (scan (mkReader k None)) = Some e0 ->
  forall s, runs U scan (init c) s -> forall i e, calls s i = Made (Some e) ->
  forall s' src, runs U scan s s' -> Refuses e (stream_in U s' (Some e) src).
Proof.
  intros I B s R i e E s' src R'. destruct (C44_lemma U scan c SC CS k x e0 I B s R i _ E) as [G _]. rewrite (G s' R').
  unfold SynFilter, NewTokenStream. generalize (mkSyn src (q_new []) (q_new [])) (@None token) (@None error). cofix IH.
  intros st tok err. eapply Refuses_next; [exists 0; reflexivity|apply IH].
Qed.
End Two.

(** ** Examples *)
From Verif Require Import UnicodeData Words WordsProofs PropSynLemmas2.

Lemma C44_partial_lemma U scan c : scanner_ok scan -> uIsSpace U 44 = false ->
  forall k x e0, In (k, x) (cf_mappings c) -> serr (scan (mkReader k None)) = Some e0 ->
  forall s, runs U scan (init c) s ->
  (forall i j e e', calls s i = Made (Some e) -> calls s j = Made (Some e') -> i = j) /\
  (forall i e, calls s i = Made (Some e) -> forall s' src, runs U scan s s' -> Refuses e (stream_in U s' (Some e) src)).
Proof.
  intros SC CS k x e0 I B s R. split.
  - intros i j e e' E E'. destruct (Nat.eq_dec i j) as [|N]; [assumption|]. exfalso.
    destruct (C44_lemma U scan c SC CS k x e0 I B s R i _ E) as [_ G]. destruct (G j _ (not_eq_sym N) E'); discriminate.
  - intros i e E. exact (C44_partial U scan c SC CS k x e0 I B s R i e E).
Qed.

Lemma C43_example_lemma : exists s, runs go_unicode words_scan (init (mkConfig [("js, ecmascript", "javascript")]%string true [])) s /\
    calls s 0 = Made None /\ calls s 1 = Made None.
Proof.
  destruct (concrete_built [("js, ecmascript", "javascript")]%string true []) as (D & b & _ & B).
  eapply (two_calls go_unicode words_scan _ words_scan_ok go_comma). eexists. split; [reflexivity|exact B].
Qed.

(** Pieces longer than [n] bytes are refused. *)
Fixpoint upto (n : nat) (l : list string) : list string * bool :=
  match l with
  | [] => ([], false)
  | x :: l' => if Nat.ltb n (String.length x) then ([], true) else let '(a, b) := upto n l' in (x :: a, b)
  end.

Definition limited (n : nat) : oracle := fun r =>
  let '(l, cut) := upto n (pending (words_scan r)) in
  mkScanner l (if cut then Some "bufio.Scanner: token too long"%string else serr (words_scan r)).

Lemma upto_spec n l : exists l', l = fst (upto n l) ++ l' /\ (snd (upto n l) = false -> l' = []).
Proof.
  induction l as [|x l (l' & E & F)]; [exists []; auto|]. cbn [upto]. destruct (Nat.ltb n (String.length x)).
  - exists (x :: l). split; [reflexivity|discriminate].
  - destruct (upto n l) as [a b]. cbn [fst snd] in *. exists l'. rewrite E at 1. auto.
Qed.

Lemma sconcat_app l1 l2 : sconcat (l1 ++ l2) = (sconcat l1 ++ sconcat l2)%string.
Proof. induction l1 as [|x l IH]; [reflexivity|]. cbn. rewrite IH, sapp_assoc. reflexivity. Qed.

Lemma limited_ok n : scanner_ok (limited n).
Proof.
  destruct words_scan_ok as [A B C D].
  constructor; intros r.
  - intros x I. apply (A r). unfold limited in I. destruct (upto_spec n (pending (words_scan r))) as (l' & E & _).
    destruct (upto n (pending (words_scan r))) as [l cut]. cbn [fst pending] in *. rewrite E. apply in_or_app. auto.
  - unfold limited. destruct (upto_spec n (pending (words_scan r))) as (l' & E & _).
    destruct (upto n (pending (words_scan r))) as [l cut]. cbn [fst pending] in *. destruct (B r) as [rest Hr].
    exists (sconcat l' ++ rest)%string. rewrite Hr, E, sconcat_app, sapp_assoc. reflexivity.
  - unfold limited. destruct (upto_spec n (pending (words_scan r))) as (l' & E & F).
    destruct (upto n (pending (words_scan r))) as [l cut]. cbn [fst snd pending serr] in *. destruct cut; [discriminate|].
    rewrite (F eq_refl), app_nil_r in E. intros H. rewrite <- E. apply C, H.
  - intros e He. unfold limited. destruct (upto n (pending (words_scan r))) as [l cut]. cbn [serr]. destruct cut; [discriminate|].
    apply (D r e He).
Qed.

Lemma C44_example_lemma : scanner_ok (limited 5) /\
    serr (limited 5 (mkReader "javascript" None)) = Some "bufio.Scanner: token too long"%string /\
    exists s e, runs go_unicode (limited 5) (init (mkConfig [("javascript", "js")]%string true [])) s /\
      calls s 0 = Made (Some e) /\ calls s 1 = Made None.
Proof.
  assert (B : serr (limited 5 (mkReader "javascript" None)) = Some "bufio.Scanner: token too long"%string) by (vm_compute; reflexivity).
  split; [apply limited_ok|]. split; [exact B|].
  destruct (C44_refutation go_unicode (limited 5) (mkConfig [("javascript", "js")]%string true []) (limited_ok 5) go_comma
    "javascript" "js" _ (or_introl eq_refl) B) as (s & e & R & E0 & E1 & _). eauto.
Qed.
