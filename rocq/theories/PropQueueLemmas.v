(** * PropQueueLemmas: lemmas behind C45 and C46. *)

From Coq Require Import ZArith.
From Verif Require Import Base Token Queue SliceQueue QueueSpec QueueProofs.

Section Poly.
Context {A : Type}.
Variable nil_ : A.
Implicit Types (h : heap A) (m : mem A) (s : slice) (xs : list A).

Lemma C45_lemma os m : separate m ->
  match exec_all nil_ os m with
  | Ret (as_, m') =>
    fifo_all os (contents m) = Some (as_, contents m') /\ separate m' /\
    forall a, a < length (heap_ m) -> (forall j s, nth_error (queues m) j = Some s -> ~ uses s a) ->
      cells (heap_ m') a = cells (heap_ m) a
  | Panic => fifo_all os (contents m) = None
  | NoFuel => False
  end.
Proof.
  intros S. pose proof (exec_all_spec nil_ os m S) as H. destruct (exec_all nil_ os m) as [[as_ m']| |]; auto.
  destruct H as (E & S' & _ & F). split; [exact E|]. split; [exact S'|]. intros a La Na. apply (F a La Na).
Qed.

Lemma empty_separate : separate (mkMem (A := A) [] []).
Proof. split; [intros i s E|intros i j s s' a E]; destruct i; discriminate. Qed.

(** ** C46 *)

Lemma C46_Drop h s n : well_formed h s -> n <= s_len s ->
  exists k m', Drop (NewSpread (mkMem h []) s) 0 (Z.of_nat n) = Ret (k, m') /\
    view (heap_ m') s = skipn n (view h s) ++ skipn (s_len s - n) (view h s).
Proof.
  intros W Ln.
  assert (S : separate (NewSpread (mkMem h []) s)).
  { split; cbn [NewSpread heap_ queues app].
    - intros [|[|i]] x E; try discriminate. injection E as <-. exact W.
    - intros [|[|i]] [|[|j]] x y a E E'; try discriminate; auto. }
  destruct (Drop_spec (NewSpread (mkMem h []) s) 0 s n S eq_refl Ln) as (m' & D & _ & _ & _ & _).
  exists (s_len s - n), m'. split; [exact D|].
  revert D. unfold Drop, queue_at. cbn [NewSpread queues app nth_error bind heap_]. unfold sl_from.
  destruct (Z.ltb_spec (Z.of_nat n) 0); [lia|]. destruct (Z.ltb_spec (Z.of_nat (s_len s)) (Z.of_nat n)); [lia|]. cbn [orb bind].
  rewrite Nat2Z.id. unfold sl_copy. cbn [s_len s_arr s_off]. unfold sl_to.
  destruct W as (Lc & C).
  destruct (Z.ltb_spec (Z.of_nat (s_len s) - Z.of_nat n) 0); [lia|].
  destruct (Z.ltb_spec (Z.of_nat (s_cap s)) (Z.of_nat (s_len s) - Z.of_nat n)); [lia|]. cbn [orb bind].
  intros E. injection E as E1 <-. clear E1. cbn [put heap_]. replace (Nat.min (s_len s) (s_len s - n)) with (s_len s - n) by lia.
  destruct C as [Z|(B & C)].
  - unfold view. replace (s_len s) with 0 by lia. cbn. destruct n; reflexivity.
  - unfold view at 1. rewrite cells_store_same by exact B. unfold view. cbn [s_len s_arr s_off].
    set (c := cells h (s_arr s)) in *. rewrite firstn_firstn, Nat.min_id, <- skipn_skipn. set (v := skipn (s_off s) c).
    assert (Lv : s_len s <= length v) by (unfold v; rewrite skipn_length; lia).
    set (X := firstn (s_len s - n) (skipn n v)). assert (LX : length X = s_len s - n) by (unfold X; rewrite firstn_length, skipn_length; lia).
    unfold overwrite. rewrite skipn_app, (skipn_all2 (firstn (s_off s) c)) by (rewrite firstn_length; lia).
    rewrite firstn_length. replace (s_off s - Nat.min (s_off s) (length c)) with 0 by lia. cbn [skipn app].
    rewrite <- skipn_skipn. fold v. rewrite firstn_app, firstn_all2 by lia. f_equal.
    + unfold X. symmetry. apply skipn_firstn_comm.
    + rewrite LX, skipn_firstn_comm. reflexivity.
Qed.

Section Keep.
Variable i : nat.
Variable s : slice.
Variable xs : list A.
Hypothesis Cap : s_cap s <> 0.

Definition K m : Prop :=
  separate m /\ view (heap_ m) s = xs /\ s_arr s < length (heap_ m) /\
  ((exists cur, nth_error (queues m) i = Some cur /\ s_arr cur = s_arr s /\ s_off cur = s_off s /\ s_len s <= s_len cur /\ s_cap cur = s_cap s) \/
   (nth_error (queues m) i <> None /\ forall j x, nth_error (queues m) j = Some x -> ~ uses x (s_arr s))).

Lemma set_nth_some {B} j (y : B) l k : nth_error l k <> None -> nth_error (set_nth j y l) k <> None.
Proof. intros N. apply nth_error_Some. rewrite set_nth_length. apply nth_error_Some, N. Qed.

Lemma K_other m j x h' x' : K m -> nth_error (queues m) j = Some x -> changes (heap_ m) x h' x' -> j <> i -> K (put m j h' x').
Proof.
  intros (S & V & Bd & C) E Ch N. pose proof (put_spec m j x h' x' S E Ch) as (P1 & P2 & P3). pose proof Ch as (_ & Lh & F & _ & _).
  assert (Nx : ~ uses x (s_arr s)).
  { destruct C as [(cur & Ec & Ea & _ & _ & Ecap)|[_ C]]; [|apply (C j x E)]. intros U. apply N.
    apply (proj2 S j i x cur (s_arr s) E Ec U). split; congruence. }
  split; [exact P1|]. cbn [put heap_ queues]. split; [unfold view in *; rewrite (F _ Bd Nx); exact V|]. split; [lia|].
  destruct C as [(cur & Ec & R)|[Nn C]].
  - left. exists cur. split; [rewrite nth_error_set_other by (intros ->; contradiction); exact Ec|exact R].
  - right. split; [apply set_nth_some, Nn|]. destruct (P3 _ Bd C) as [_ G]. exact G.
Qed.

Lemma K_append m j x ys extra h' x' : K m -> nth_error (queues m) j = Some x -> sl_append nil_ (heap_ m) x ys extra = (h', x') -> K (put m j h' x').
Proof.
  intros (S & V & Bd & C) E Ap. destruct (append_spec nil_ m j x ys extra S E h' x' Ap) as [Ch _].
  destruct (Nat.eq_dec j i) as [->|N]; [|exact (K_other m j x h' x' (conj S (conj V (conj Bd C))) E Ch N)].
  pose proof (put_spec m i x h' x' S E Ch) as (P1 & P2 & P3).
  destruct C as [(cur & Ec & Ea & Eo & El & Ecap)|[Nn C]].
  - rewrite E in Ec. injection Ec as <-. unfold sl_append in Ap.
    pose proof (proj1 S i x E) as (Lx & [Z|(Bx & Cx)]); [congruence|].
    destruct (Nat.leb_spec (s_len x + length ys) (s_cap x)) as [Le|Gt]; injection Ap as <- <-.
    + split; [exact P1|]. cbn [put heap_ queues]. rewrite length_store. split; [|split; [exact Bd|]].
      * rewrite <- V. unfold view. rewrite Ea. rewrite cells_store_same by exact Bd. rewrite <- Ea. set (c := cells (heap_ m) (s_arr x)) in *.
        unfold overwrite. rewrite skipn_app, firstn_app, firstn_length. replace (s_off s - Nat.min (s_off x + s_len x) (length c)) with 0 by lia.
        rewrite skipn_firstn_comm, firstn_firstn, firstn_length, skipn_length.
        replace (Nat.min (s_len s) (s_off x + s_len x - s_off s)) with (s_len s) by lia.
        replace (s_len s - Nat.min (s_off x + s_len x - s_off s) (length c - s_off s)) with 0 by lia. cbn [firstn]. apply app_nil_r.
      * left. eexists. split; [eapply nth_error_set_same, E|]. cbn. repeat split; auto; lia.
    + split; [exact P1|]. cbn [put heap_ queues]. rewrite app_length. split; [|split; [cbn; lia|]].
      * rewrite <- V. unfold view. rewrite cells_app by exact Bd. reflexivity.
      * right. split; [apply set_nth_some; congruence|]. intros k y Ek U. destruct (Nat.eq_dec k i) as [->|Nk].
        -- rewrite (nth_error_set_same _ _ _ _ E) in Ek. injection Ek as <-. destruct U as [_ U]. cbn in U. lia.
        -- rewrite nth_error_set_other in Ek by exact Nk. apply Nk. apply (proj2 S k i y x (s_arr s) Ek E U). split; congruence.
  - split; [exact P1|]. cbn [put heap_ queues]. pose proof Ch as (_ & Lh & F & _ & _). split; [|split; [lia|]].
    + unfold view in *. rewrite (F _ Bd (C i x E)). exact V.
    + right. split; [apply set_nth_some, Nn|]. destruct (P3 _ Bd C) as [_ G]. exact G.
Qed.

Lemma K_new m ys : K m -> K (New m ys).
Proof.
  intros (S & V & Bd & C). destruct (New_spec m ys S) as (S' & _ & L & F). split; [exact S'|].
  assert (Hc : cells (heap_ (New m ys)) (s_arr s) = cells (heap_ m) (s_arr s)).
  { unfold New. destruct ys; cbn [heap_]; [reflexivity|]. apply cells_app, Bd. }
  split; [unfold view in *; rewrite Hc; exact V|]. split; [lia|]. 
  assert (Hi : nth_error (queues m) i <> None -> nth_error (queues (New m ys)) i = nth_error (queues m) i).
  { intros N. apply nth_error_Some in N. unfold New. destruct ys; cbn [queues]; apply nth_error_app1, N. }
  destruct C as [(cur & Ec & R)|[Nn C]].
  - left. exists cur. split; [rewrite Hi by congruence; exact Ec|exact R].
  - right. split; [rewrite Hi; exact Nn|]. destruct (F _ Bd C) as [_ G]. exact G.
Qed.

Lemma K_Drop m j n k m' : K m -> j <> i -> Drop m j n = Ret (k, m') -> K m'.
Proof.
  intros HK N D. pose proof HK as (S & _). unfold Drop, queue_at in D. destruct (nth_error (queues m) j) as [x|] eqn:E; [|discriminate].
  cbn [bind] in D. unfold sl_from in D. destruct (Z.ltb_spec n 0); [discriminate|]. destruct (Z.ltb_spec (Z.of_nat (s_len x)) n); [discriminate|].
  cbn [orb bind] in D. unfold sl_copy in D. cbn [s_len s_arr s_off] in D. unfold sl_to in D.
  pose proof (proj1 S j x E) as Wx. pose proof (view_length _ _ Wx) as Lv. pose proof Wx as (Lx & Cx).
  destruct (Z.ltb_spec (Z.of_nat (s_len x) - n) 0); [lia|]. destruct (Z.ltb_spec (Z.of_nat (s_cap x)) (Z.of_nat (s_len x) - n)); [lia|].
  cbn [orb bind] in D. injection D as _ <-. eapply K_other; [exact HK|exact E| |exact N].
  set (w := firstn _ _). assert (Lw : length w <= s_len x - Z.to_nat n) by (unfold w; rewrite firstn_length; lia).
  apply changes_store; [exact Wx|lia| |lia].
  destruct (Nat.eq_dec (s_cap x) 0); [left; apply length_zero_iff_nil; lia|right; assumption].
Qed.

Lemma K_Pop m j t k m' : K m -> j <> i -> Pop m j = Ret (t, k, m') -> K m'.
Proof.
  intros HK N D. unfold Pop, queue_at in D. destruct (nth_error (queues m) j) as [x|] eqn:E; [|discriminate]. cbn [bind] in D.
  destruct (view (heap_ m) x); [discriminate|]. destruct (Drop m j 1) as [[k1 m1]| |] eqn:Dr; try discriminate. cbn in D. injection D as _ _ <-.
  eapply K_Drop; eassumption.
Qed.

Lemma K_Clear m j m' : K m -> j <> i -> Clear m j = Ret m' -> K m'.
Proof.
  intros HK N D. unfold Clear, queue_at in D. destruct (nth_error (queues m) j) as [x|] eqn:E; [|discriminate]. cbn [bind] in D. unfold sl_to in D.
  destruct (Z.ltb_spec (Z.of_nat (s_cap x)) 0); [lia|]. cbn [Z.ltb Z.compare orb bind] in D. injection D as <-.
  eapply K_other; [exact HK|exact E| |exact N]. pose proof (proj1 (proj1 HK) j x E) as (L & C).
  split; [|split; [|split; [|split]]]; auto. split; [cbn; lia|exact C].
Qed.

Lemma K_Push m j ys extra m' : K m -> Push nil_ m j ys extra = Ret m' -> K m'.
Proof.
  intros HK D. unfold Push, queue_at in D. destruct (nth_error (queues m) j) as [x|] eqn:E; [|discriminate]. cbn [bind] in D.
  destruct (sl_append nil_ (heap_ m) x ys extra) as [h' x'] eqn:Ap. injection D as <-. eapply K_append; eassumption.
Qed.

Lemma K_exec o m a m' : K m -> keeps i o -> exec nil_ o m = Ret (a, m') -> K m'.
Proof.
  intros HK Kp E. destruct o as [ys|j|j|j|j n|j ys extra|j|j dst extra|j dst extra]; cbn [exec keeps] in *.
  - injection E as _ <-. apply K_new, HK.
  - destruct (Len m j) as [n| |]; try discriminate. cbn in E. injection E as _ <-. exact HK.
  - destruct (Any m j) as [n| |]; try discriminate. cbn in E. injection E as _ <-. exact HK.
  - destruct (Pop m j) as [[[t k] m1]| |] eqn:P; try discriminate. cbn in E. injection E as _ <-. eapply K_Pop; eassumption.
  - destruct (Drop m j n) as [[k m1]| |] eqn:P; try discriminate. cbn in E. injection E as _ <-. eapply K_Drop; eassumption.
  - destruct (Push nil_ m j ys extra) as [m1| |] eqn:P; try discriminate. cbn in E. injection E as _ <-. eapply K_Push; eassumption.
  - destruct (Clear m j) as [m1| |] eqn:P; try discriminate. cbn in E. injection E as _ <-. eapply K_Clear; eassumption.
  - unfold PopTo in E. destruct (Pop m j) as [[[t k] m1]| |] eqn:P; try discriminate. cbn [bind] in E.
    destruct (Push nil_ m1 dst [t] extra) as [m2| |] eqn:P2; try discriminate. cbn in E. injection E as _ <-.
    eapply K_Push; [|exact P2]. eapply K_Pop; eassumption.
  - unfold FlushTo, queue_at in E. destruct (nth_error (queues m) dst) as [d|] eqn:Ed; [|discriminate]. cbn [bind] in E.
    destruct (nth_error (queues m) j) as [x|] eqn:Ej; [|discriminate]. cbn [bind] in E.
    destruct (sl_append nil_ (heap_ m) d (view (heap_ m) x) extra) as [h' d'] eqn:Ap.
    destruct (Clear (put m dst h' d') j) as [m2| |] eqn:P2; try discriminate. cbn in E. injection E as _ <-.
    eapply K_Clear; [|exact Kp|exact P2]. eapply K_append; eassumption.
Qed.

Lemma K_exec_all os : forall m as_ m', K m -> Forall (keeps i) os -> exec_all nil_ os m = Ret (as_, m') -> K m'.
Proof.
  induction os as [|o os IH]; intros m as_ m' HK F E; cbn [exec_all] in E; [injection E as _ <-; exact HK|].
  inversion F; subst. destruct (exec nil_ o m) as [[a m1]| |] eqn:E1; try discriminate. cbn [bind] in E.
  destruct (exec_all nil_ os m1) as [[as1 m2]| |] eqn:E2; try discriminate. cbn in E. injection E as _ <-.
  eapply IH; [|eassumption|eassumption]. eapply K_exec; eassumption.
Qed.
End Keep.

Lemma C46_partial_lemma m s os as_ m' : separate (NewSpread m s) ->
  Forall (keeps (length (queues m))) os -> exec_all nil_ os (NewSpread m s) = Ret (as_, m') ->
  view (heap_ m') s = view (heap_ m) s.
Proof.
  intros S F E. destruct (Nat.eq_dec (s_cap s) 0) as [Z|Z].
  - assert (W : well_formed (heap_ m) s).
    { apply (proj1 S (length (queues m))). cbn. rewrite nth_error_app2, Nat.sub_diag by lia. reflexivity. }
    destruct W as (L & _). unfold view. replace (s_len s) with 0 by lia. reflexivity.
  - assert (N : nth_error (queues (NewSpread m s)) (length (queues m)) = Some s).
    { cbn. rewrite nth_error_app2, Nat.sub_diag by lia. reflexivity. }
    eapply (K_exec_all (length (queues m)) s (view (heap_ m) s) Z) in E; [apply E| |exact F].
    split; [exact S|]. split; [reflexivity|]. destruct (proj1 S _ _ N) as (L & [?|(B & _)]); [contradiction|]. split; [exact B|].
    left. exists s. auto.
Qed.
End Poly.

(** The list queues of Queue.v, which the filters are modelled with, are the FIFO queues. *)
Lemma C45_list_lemma : forall (q dst : queue) (xs : list token) (n e : nat),
  fifo (OLen 0) [q] = Some (IsLen (q_len q), [q]) /\
  fifo (OAny 0) [q] = Some (IsAny (q_any q), [q]) /\
  fifo (OPop 0) [q] = opt (do (t, q') <- q_pop q; Ret (IsToken t, [q'])) /\
  fifo (ODrop 0 (Z.of_nat n)) [q] = opt (do q' <- q_drop q n; Ret (Nothing, [q'])) /\
  fifo (OPush 0 xs e) [q] = Some (Nothing, [q_push q xs]) /\
  fifo (OClear 0) [q] = Some (Nothing, [q_clear q]) /\
  fifo (OPopTo 0 1 e) [q; dst] = opt (do (q', dst') <- q_popto q dst; Ret (Nothing, [q'; dst'])) /\
  fifo (OFlushTo 0 1 e) [q; dst] = Some (Nothing, [fst (q_flushto q dst); snd (q_flushto q dst)]).
Proof.
  intros q dst xs n e. destruct q as [|t q]; repeat split; cbn; try reflexivity.
  - unfold q_drop. cbn [length]. destruct n; [reflexivity|]. destruct (Z.leb_spec (Z.of_nat (S n)) 0); [lia|]. reflexivity.
  - unfold q_drop. cbn [length]. destruct (Z.leb_spec 0 (Z.of_nat n)); [|lia].
    destruct (Z.leb_spec (Z.of_nat n) (Z.pos (Pos.of_succ_nat (length q)))), (Nat.leb_spec n (S (length q))); try lia; cbn; [|reflexivity].
    rewrite Nat2Z.id. reflexivity.
Qed.

Lemma C46_refutation :
  ~ (forall (A : Type) (nil_ : A) (m : mem A) (s : slice) os as_ m', separate (NewSpread m s) ->
     exec_all nil_ os (NewSpread m s) = Ret (as_, m') -> view (heap_ m') s = view (heap_ m) s).
Proof.
  intros H. specialize (H nat 0 (mkMem [[1; 2]] []) (mkSlice 0 0 2 2) [OPop 0] [IsToken 1] (mkMem [[2; 2]] [mkSlice 0 0 1 2])).
  assert (S : separate (NewSpread (mkMem [[1; 2]] []) (mkSlice 0 0 2 2))).
  { split; cbn [NewSpread heap_ queues app].
    - intros [|[|i]] x E; try discriminate. injection E as <-. split; cbn; [lia|]. right. cbn. lia.
    - intros [|[|i]] [|[|j]] x y a E E'; try discriminate; auto. }
  specialize (H S eq_refl). discriminate.
Qed.
