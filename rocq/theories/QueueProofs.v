(** * QueueProofs: queue.go implements FIFO queues. *)

From Coq Require Import ZArith.
From Verif Require Import Base SliceQueue QueueSpec.

Section Proofs.
Context {A : Type}.
Variable nil_ : A.
Implicit Types (h : heap A) (m : mem A) (s : slice) (xs : list A).

Lemma skipn_skipn {B} a b (l : list B) : skipn a (skipn b l) = skipn (b + a) l.
Proof. revert l. induction b as [|b IH]; intros l; [reflexivity|]. destruct l; cbn; [destruct a; reflexivity|apply IH]. Qed.
Lemma set_nth_length {B} n (x : B) l : length (set_nth n x l) = length l.
Proof. revert n. induction l as [|y l IH]; intros [|n]; cbn; auto. Qed.
Lemma nth_error_set_same {B} n (x y : B) l : nth_error l n = Some y -> nth_error (set_nth n x l) n = Some x.
Proof. revert n. induction l as [|z l IH]; intros [|n]; cbn; try discriminate; auto. Qed.
Lemma nth_error_set_other {B} n k (x : B) l : k <> n -> nth_error (set_nth n x l) k = nth_error l k.
Proof. revert n k. induction l as [|z l IH]; intros [|n] [|k] N; cbn; try congruence; auto. Qed.
Lemma nth_set_same {B} n (x d : B) l : n < length l -> nth n (set_nth n x l) d = x.
Proof. revert n. induction l as [|z l IH]; intros [|n]; cbn; intros L; try lia; auto. apply IH. lia. Qed.
Lemma nth_set_other {B} n k (x d : B) l : k <> n -> nth k (set_nth n x l) d = nth k l d.
Proof. revert n k. induction l as [|z l IH]; intros [|n] [|k] N; cbn; try congruence; auto. Qed.
Lemma set_nth_replace (n : nat) (x y : list A) l : nth_error l n = Some y -> set_nth n x l = replace l n x.
Proof.
  unfold replace. revert n. induction l as [|z l IH]; intros [|n] E; cbn in *; try discriminate; auto.
  rewrite (IH n E). reflexivity.
Qed.
Lemma map_set_nth {B C} (f : B -> C) n x l : map f (set_nth n x l) = set_nth n (f x) (map f l).
Proof. revert n. induction l as [|z l IH]; intros [|n]; cbn; auto. rewrite IH. reflexivity. Qed.
Lemma nth_error_ext {B} (l1 l2 : list B) : (forall i, nth_error l1 i = nth_error l2 i) -> l1 = l2.
Proof.
  revert l2. induction l1 as [|x l IH]; intros [|y l2] H; auto.
  - specialize (H 0); discriminate.
  - specialize (H 0); discriminate.
  - f_equal; [specialize (H 0); cbn in H; congruence|]. apply IH. intros i. apply (H (Datatypes.S i)).
Qed.

Lemma cells_store_same h a off xs : a < length h -> cells (store h a off xs) a = overwrite (cells h a) off xs.
Proof. intros L. unfold cells at 1, store. apply nth_set_same, L. Qed.
Lemma cells_store_other h a b off xs : b <> a -> cells (store h a off xs) b = cells h b.
Proof. intros N. unfold cells, store. apply nth_set_other, N. Qed.
Lemma length_store h a off xs : length (store h a off xs) = length h.
Proof. apply set_nth_length. Qed.
Lemma cells_app h c a : a < length h -> cells (h ++ [c]) a = cells h a.
Proof. intros L. unfold cells. apply app_nth1, L. Qed.
Lemma cells_last h c : cells (h ++ [c]) (length h) = c.
Proof. unfold cells. rewrite app_nth2, Nat.sub_diag by lia. reflexivity. Qed.

Lemma overwrite_length (c : list A) off xs : off + length xs <= length c -> length (overwrite c off xs) = length c.
Proof. intros L. unfold overwrite. rewrite !app_length, firstn_length, skipn_length. lia. Qed.

Lemma view_length h s : well_formed h s -> length (view h s) = s_len s.
Proof.
  intros (L & [Z|(B & C)]); unfold view; rewrite firstn_length; [lia|]. rewrite skipn_length. lia.
Qed.

(** One queue changes its own array, or moves to a fresh one. *)
Definition changes h s h' s' : Prop :=
  well_formed h' s' /\ length h <= length h' /\
  (forall a, a < length h -> ~ uses s a -> cells h' a = cells h a) /\
  (forall a, a < length h -> length (cells h' a) = length (cells h a)) /\
  (forall a, uses s' a -> uses s a \/ length h <= a).

Lemma nth_error_map_some {B C} (f : B -> C) l i y : nth_error (map f l) i = Some y -> exists x, nth_error l i = Some x /\ y = f x.
Proof. rewrite nth_error_map. destruct (nth_error l i); cbn; [|discriminate]. intros E. injection E as <-. eauto. Qed.

Lemma put_spec m i s h' s' : separate m -> nth_error (queues m) i = Some s -> changes (heap_ m) s h' s' ->
  separate (put m i h' s') /\ contents (put m i h' s') = replace (contents m) i (view h' s') /\
  (forall a, a < length (heap_ m) -> (forall j x, nth_error (queues m) j = Some x -> ~ uses x a) ->
     cells h' a = cells (heap_ m) a /\ forall j x, nth_error (queues (put m i h' s')) j = Some x -> ~ uses x a).
Proof.
  intros (W & D) E (W' & L & F & Ln & O).
  assert (Oth : forall j x, j <> i -> nth_error (queues m) j = Some x -> well_formed h' x /\ view h' x = view (heap_ m) x).
  { intros j x N Ej. destruct (W j x Ej) as (Lx & Cx). destruct Cx as [Z|(Bx & Cx)].
    - split; [split; auto|]. unfold view. replace (s_len x) with 0 by lia. reflexivity.
    - destruct (Nat.eq_dec (s_cap x) 0) as [Z|Z].
      { split; [split; auto|]. unfold view. replace (s_len x) with 0 by lia. reflexivity. }
      assert (Cc : cells h' (s_arr x) = cells (heap_ m) (s_arr x)).
      { apply F; [exact Bx|]. intros U. apply N. apply (D j i x s (s_arr x) Ej E); [split; auto|exact U]. }
      split; [|unfold view; rewrite Cc; reflexivity]. split; [exact Lx|]. right. rewrite Cc. lia. }
  split; [split|split].
  - cbn [put queues heap_]. intros j x Ej. destruct (Nat.eq_dec j i) as [->|N].
    + rewrite (nth_error_set_same _ _ _ _ E) in Ej. injection Ej as <-. exact W'.
    + rewrite nth_error_set_other in Ej by exact N. apply (Oth j x N Ej).
  - cbn [put queues heap_].
    assert (G : forall k y a, k <> i -> nth_error (queues m) k = Some y -> uses s' a -> uses y a -> False).
    { intros k y a N Ek U1 U2. destruct (O a U1) as [U|U].
      - apply N. apply (D k i y s a Ek E U2 U).
      - destruct (W k y Ek) as (_ & [Z|(B & _)]); destruct U2; [contradiction|lia]. }
    intros j k x y a Ej Ek U1 U2. destruct (Nat.eq_dec j i) as [->|Nj], (Nat.eq_dec k i) as [->|Nk]; auto.
    + rewrite (nth_error_set_same _ _ _ _ E) in Ej. injection Ej as <-. rewrite nth_error_set_other in Ek by exact Nk.
      exfalso. eapply G; eassumption.
    + rewrite (nth_error_set_same _ _ _ _ E) in Ek. injection Ek as <-. rewrite nth_error_set_other in Ej by exact Nj.
      exfalso. eapply G; eassumption.
    + rewrite nth_error_set_other in Ej by exact Nj. rewrite nth_error_set_other in Ek by exact Nk. eapply D; eassumption.
  - unfold contents. cbn [put queues heap_]. rewrite map_set_nth.
    rewrite <- (set_nth_replace i _ (view (heap_ m) s)) by (rewrite nth_error_map, E; reflexivity).
    apply nth_error_ext. intros j. destruct (Nat.eq_dec j i) as [->|N].
    + rewrite (nth_error_set_same i (view h' s') (view h' s)) by (rewrite nth_error_map, E; reflexivity).
      symmetry. apply (nth_error_set_same i _ (view (heap_ m) s)). rewrite nth_error_map, E. reflexivity.
    + rewrite !nth_error_set_other by exact N. rewrite !nth_error_map. destruct (nth_error (queues m) j) as [x|] eqn:Ej; [|reflexivity].
      cbn. f_equal. apply (Oth j x N Ej).
  - intros a La Na. split; [apply F; [exact La|apply (Na i s E)]|]. cbn [put queues]. intros j x Ej U.
    destruct (Nat.eq_dec j i) as [->|N].
    + rewrite (nth_error_set_same _ _ _ _ E) in Ej. injection Ej as <-. destruct (O a U) as [U'|U']; [apply (Na i s E U')|lia].
    + rewrite nth_error_set_other in Ej by exact N. apply (Na j x Ej U).
Qed.

(** ** Primitive changes *)

Lemma changes_store h s off xs n : well_formed h s -> n <= s_cap s ->
  (xs = [] \/ s_cap s <> 0) -> off + length xs <= s_off s + s_cap s ->
  changes h s (store h (s_arr s) off xs) (mkSlice (s_arr s) (s_off s) n (s_cap s)).
Proof.
  intros (L & C) Ln Nz Fit. unfold changes. split; [|split; [|split; [|split]]].
  - split; [exact Ln|]. cbn [s_arr s_off s_len s_cap]. destruct C as [Z|(B & C)]; [left; exact Z|right].
    rewrite length_store. split; [exact B|]. rewrite cells_store_same by exact B. rewrite overwrite_length; lia.
  - rewrite length_store. lia.
  - intros a La U. destruct (Nat.eq_dec a (s_arr s)) as [->|N]; [|apply cells_store_other, N].
    destruct Nz as [->|Nz]; [|exfalso; apply U; split; auto].
    rewrite cells_store_same by exact La. unfold overwrite. cbn [length app]. rewrite Nat.add_0_r. apply firstn_skipn.
  - intros a La. destruct (Nat.eq_dec a (s_arr s)) as [->|N]; [|rewrite cells_store_other; auto].
    rewrite cells_store_same by exact La. destruct Nz as [->|Nz].
    + unfold overwrite. cbn [length app]. rewrite Nat.add_0_r, firstn_skipn. reflexivity.
    + destruct C as [Z|(B & C)]; [contradiction|]. apply overwrite_length. lia.
  - intros a U. left. exact U.
Qed.

Lemma firstn_overwrite_drop (c : list A) off len n : n <= len -> off + len <= length c ->
  firstn (len - n) (skipn off (overwrite c off (skipn n (firstn len (skipn off c))))) = skipn n (firstn len (skipn off c)).
Proof.
  intros Ln Lc. set (X := skipn n (firstn len (skipn off c))).
  assert (LX : length X = len - n) by (unfold X; rewrite skipn_length, firstn_length, skipn_length; lia).
  unfold overwrite. rewrite skipn_app, (skipn_all2 (firstn off c)) by (rewrite firstn_length; lia).
  rewrite firstn_length. replace (off - Nat.min off (length c)) with 0 by lia. cbn [skipn app].
  rewrite firstn_app, <- LX, firstn_all, Nat.sub_diag. cbn [firstn]. apply app_nil_r.
Qed.

Lemma Drop_spec m i s n : separate m -> nth_error (queues m) i = Some s -> n <= s_len s ->
  exists m', Drop m i (Z.of_nat n) = Ret (s_len s - n, m') /\ separate m' /\
    contents m' = replace (contents m) i (skipn n (view (heap_ m) s)) /\
    length (heap_ m) <= length (heap_ m') /\
    (forall a, a < length (heap_ m) -> (forall j x, nth_error (queues m) j = Some x -> ~ uses x a) ->
       cells (heap_ m') a = cells (heap_ m) a /\ forall j x, nth_error (queues m') j = Some x -> ~ uses x a).
Proof.
  intros S E Ln. destruct S as (W & D). pose proof (W i s E) as Ws.
  set (h' := store (heap_ m) (s_arr s) (s_off s) (skipn n (view (heap_ m) s))).
  set (s' := mkSlice (s_arr s) (s_off s) (s_len s - n) (s_cap s)).
  assert (Eq : Drop m i (Z.of_nat n) = Ret (s_len s - n, put m i h' s')).
  { unfold Drop, queue_at. rewrite E. cbn [bind]. unfold sl_from.
    destruct (Z.ltb_spec (Z.of_nat n) 0); [lia|]. destruct (Z.ltb_spec (Z.of_nat (s_len s)) (Z.of_nat n)); [lia|]. cbn [orb bind].
    rewrite Nat2Z.id. unfold sl_copy. cbn [s_len s_arr s_off]. unfold sl_to.
    destruct Ws as (Lc & _).
    destruct (Z.ltb_spec (Z.of_nat (s_len s) - Z.of_nat n) 0); [lia|].
    destruct (Z.ltb_spec (Z.of_nat (s_cap s)) (Z.of_nat (s_len s) - Z.of_nat n)); [lia|]. cbn [orb bind].
    replace (Nat.min (s_len s) (s_len s - n)) with (s_len s - n) by lia. f_equal. f_equal. unfold s'.
    replace (Z.to_nat (Z.of_nat (s_len s) - Z.of_nat n)) with (s_len s - n) by lia.
    f_equal. unfold h'. f_equal. unfold view. cbn [s_len s_arr s_off].
    rewrite firstn_firstn, Nat.min_id, skipn_firstn_comm, skipn_skipn. reflexivity. }
  assert (Ch : changes (heap_ m) s h' s').
  { apply changes_store; [exact Ws|destruct Ws; lia| |].
    - destruct (Nat.eq_dec (s_cap s) 0); [left|right; assumption]. apply length_zero_iff_nil. rewrite skipn_length, view_length by exact Ws.
      destruct Ws; lia.
    - rewrite skipn_length, view_length by exact Ws. destruct Ws; lia. }
  destruct (put_spec m i s h' s' (conj W D) E Ch) as (P1 & P2 & P3).
  exists (put m i h' s'). split; [exact Eq|]. split; [exact P1|]. split; [|split; [apply Ch|exact P3]].
  rewrite P2. f_equal. unfold view at 1, h', s'. cbn [s_arr s_off s_len].
  destruct Ws as (Lc & [Z|(B & C)]).
  - unfold view. replace (s_len s) with 0 by lia. cbn. destruct n; reflexivity.
  - rewrite cells_store_same by exact B. unfold view. apply firstn_overwrite_drop; lia.
Qed.

Lemma append_spec m i s xs extra : separate m -> nth_error (queues m) i = Some s ->
  forall h' s', sl_append nil_ (heap_ m) s xs extra = (h', s') ->
  changes (heap_ m) s h' s' /\ view h' s' = view (heap_ m) s ++ xs.
Proof.
  intros (W & D) E h' s' Ap. pose proof (W i s E) as Ws. unfold sl_append in Ap.
  destruct (Nat.leb_spec (s_len s + length xs) (s_cap s)) as [Le|Gt]; injection Ap as <- <-.
  - split.
    + apply changes_store; auto; [|lia]. destruct xs; [auto|right; cbn in Le; lia].
    + destruct Ws as (Lc & [Z|(B & C)]).
      * unfold view. cbn [s_len]. replace (s_len s) with 0 by lia. destruct xs; [reflexivity|cbn in Le; lia].
      * unfold view. cbn [s_arr s_off s_len]. rewrite cells_store_same by exact B. set (c := cells (heap_ m) (s_arr s)) in *.
        unfold overwrite. rewrite skipn_app, firstn_length. replace (s_off s - Nat.min (s_off s + s_len s) (length c)) with 0 by lia.
        cbn [skipn]. rewrite skipn_firstn_comm. replace (s_off s + s_len s - s_off s) with (s_len s) by lia.
        rewrite firstn_app, firstn_firstn, firstn_length, skipn_length.
        replace (Nat.min (s_len s + length xs) (s_len s)) with (s_len s) by lia. f_equal.
        replace (s_len s + length xs - Nat.min (s_len s) (length c - s_off s)) with (length xs) by lia.
        rewrite firstn_app, firstn_all, Nat.sub_diag. cbn [firstn]. apply app_nil_r.
  - split.
    + unfold changes. cbn [s_arr s_off s_len s_cap]. split; [|split; [|split; [|split]]].
      * split; [cbn; lia|]. right. cbn [s_arr s_off s_cap]. rewrite app_length, cells_last, !app_length, repeat_length, view_length by exact Ws.
        cbn. lia.
      * rewrite app_length. lia.
      * intros a La _. apply cells_app, La.
      * intros a La. rewrite cells_app; auto.
      * intros a [_ <-]. right. cbn. lia.
    + unfold view at 1. cbn [s_arr s_off s_len]. rewrite cells_last. cbn [skipn]. rewrite app_assoc, firstn_app.
      rewrite app_length, view_length by exact Ws. rewrite Nat.sub_diag. cbn [firstn]. rewrite app_nil_r.
      rewrite firstn_all2; [reflexivity|]. rewrite app_length, view_length by exact Ws. lia.
Qed.

Definition frames m m' : Prop := length (heap_ m) <= length (heap_ m') /\
  forall a, a < length (heap_ m) -> (forall j x, nth_error (queues m) j = Some x -> ~ uses x a) ->
    cells (heap_ m') a = cells (heap_ m) a /\ forall j x, nth_error (queues m') j = Some x -> ~ uses x a.

Lemma frames_refl m : frames m m.
Proof. split; auto. Qed.
Lemma frames_trans m1 m2 m3 : frames m1 m2 -> frames m2 m3 -> frames m1 m3.
Proof.
  intros [L1 F1] [L2 F2]. split; [lia|]. intros a La Na. destruct (F1 a La Na) as [E1 N1].
  destruct (F2 a ltac:(lia) N1) as [E2 N2]. split; [congruence|exact N2].
Qed.

Lemma contents_nth m i : nth_error (contents m) i = option_map (view (heap_ m)) (nth_error (queues m) i).
Proof. apply nth_error_map. Qed.

Lemma Push_spec m i s xs extra : separate m -> nth_error (queues m) i = Some s ->
  exists m', Push nil_ m i xs extra = Ret m' /\ separate m' /\ contents m' = replace (contents m) i (view (heap_ m) s ++ xs) /\ frames m m'.
Proof.
  intros S E. unfold Push, queue_at. rewrite E. cbn [bind].
  destruct (sl_append nil_ (heap_ m) s xs extra) as [h' s'] eqn:Ap.
  destruct (append_spec m i s xs extra S E h' s' Ap) as [Ch V]. destruct (put_spec m i s h' s' S E Ch) as (P1 & P2 & P3).
  eexists. split; [reflexivity|]. split; [exact P1|]. rewrite P2, V. split; [reflexivity|]. split; [apply Ch|exact P3].
Qed.

Lemma Clear_spec m i s : separate m -> nth_error (queues m) i = Some s ->
  exists m', Clear m i = Ret m' /\ separate m' /\ contents m' = replace (contents m) i [] /\ frames m m'.
Proof.
  intros S E. unfold Clear, queue_at. rewrite E. cbn [bind]. unfold sl_to.
  destruct (Z.ltb_spec (Z.of_nat (s_cap s)) 0); [lia|]. cbn [Z.ltb Z.compare orb bind].
  pose proof (proj1 S i s E) as Ws.
  assert (Ch : changes (heap_ m) s (heap_ m) (mkSlice (s_arr s) (s_off s) 0 (s_cap s))).
  { split; [|split; [|split; [|split]]]; auto. destruct Ws as (L & C). split; [cbn; lia|exact C]. }
  destruct (put_spec m i s _ _ S E Ch) as (P1 & P2 & P3). cbn [Z.to_nat]. eexists. split; [reflexivity|]. split; [exact P1|]. rewrite P2.
  split; [reflexivity|]. split; [apply Ch|exact P3].
Qed.

Lemma New_spec m xs : separate m -> separate (New m xs) /\ contents (New m xs) = contents m ++ [xs] /\ frames m (New m xs).
Proof.
  intros (W & D). assert (Emp : forall s a, s = mkSlice 0 0 0 0 -> ~ uses s a) by (intros s a -> [C _]; apply C; reflexivity).
  unfold New. destruct xs as [|x xs].
  - split; [|split].
    + split; cbn [heap_ queues].
      * intros i s E. destruct (Nat.lt_ge_cases i (length (queues m))) as [L|L].
        -- rewrite nth_error_app1 in E by exact L. eauto.
        -- rewrite nth_error_app2 in E by exact L. destruct (i - length (queues m)) as [|k]; [|destruct k; discriminate].
           injection E as <-. split; cbn; auto.
      * intros i j s s' a Ei Ej Ui Uj.
        assert (Hi : i < length (queues m)).
        { destruct (Nat.lt_ge_cases i (length (queues m))) as [L|L]; [exact L|exfalso].
          rewrite nth_error_app2 in Ei by exact L. destruct (i - length (queues m)) as [|k]; [|destruct k; discriminate].
          injection Ei as <-. apply Ui. reflexivity. }
        assert (Hj : j < length (queues m)).
        { destruct (Nat.lt_ge_cases j (length (queues m))) as [L|L]; [exact L|exfalso].
          rewrite nth_error_app2 in Ej by exact L. destruct (j - length (queues m)) as [|k]; [|destruct k; discriminate].
          injection Ej as <-. apply Uj. reflexivity. }
        rewrite nth_error_app1 in Ei, Ej by assumption. eapply D; eassumption.
    + unfold contents. cbn [heap_ queues]. rewrite map_app. reflexivity.
    + split; [cbn; lia|]. cbn [heap_ queues]. intros a La Na. split; [reflexivity|]. intros j s E.
      destruct (Nat.lt_ge_cases j (length (queues m))) as [L|L].
      * rewrite nth_error_app1 in E by exact L. eauto.
      * rewrite nth_error_app2 in E by exact L. destruct (j - length (queues m)) as [|k]; [|destruct k; discriminate].
        injection E as <-. apply Emp. reflexivity.
  - set (ys := x :: xs) in *. set (s0 := mkSlice (length (heap_ m)) 0 (length ys) (length ys)).
    assert (Old : forall i s, nth_error (queues m) i = Some s -> well_formed (heap_ m ++ [ys]) s /\ view (heap_ m ++ [ys]) s = view (heap_ m) s).
    { intros i s E. destruct (W i s E) as (L & [Z|(B & C)]).
      - split; [split; auto|]. unfold view. replace (s_len s) with 0 by lia. reflexivity.
      - unfold well_formed, view. rewrite cells_app by exact B. rewrite app_length. split; [|reflexivity]. split; [exact L|]. right. lia. }
    split; [|split].
    + split; cbn [heap_ queues].
      * intros i s E. destruct (Nat.lt_ge_cases i (length (queues m))) as [L|L].
        -- rewrite nth_error_app1 in E by exact L. apply (Old i s E).
        -- rewrite nth_error_app2 in E by exact L. destruct (i - length (queues m)) as [|k]; [|destruct k; discriminate].
           injection E as <-. split; cbn [s0 s_len s_cap s_arr s_off]; [lia|]. right. rewrite app_length, cells_last. cbn. lia.
      * assert (G : forall i s a, i < length (queues m) -> nth_error (queues m) i = Some s -> uses s a -> a < length (heap_ m)).
        { intros i s a _ E [N <-]. destruct (W i s E) as (_ & [Z|(B & _)]); [contradiction|exact B]. }
        assert (G2 : forall i s, nth_error (queues m ++ [s0]) i = Some s ->
          (i < length (queues m) /\ nth_error (queues m) i = Some s) \/ (i = length (queues m) /\ s = s0)).
        { intros i s E. destruct (Nat.lt_ge_cases i (length (queues m))) as [L|L].
          - rewrite nth_error_app1 in E by exact L. auto.
          - rewrite nth_error_app2 in E by exact L. destruct (i - length (queues m)) as [|k] eqn:Ek; [|destruct k; discriminate].
            injection E as <-. right. split; [lia|reflexivity]. }
        intros i j s s' a Ei Ej Ui Uj.
        destruct (G2 _ _ Ei) as [[Li Ei']|[-> ->]], (G2 _ _ Ej) as [[Lj Ej']|[-> ->]]; auto.
        -- eapply D; eassumption.
        -- specialize (G _ _ _ Li Ei' Ui). destruct Uj as [_ Uj]. cbn in Uj. lia.
        -- specialize (G _ _ _ Lj Ej' Uj). destruct Ui as [_ Ui]. cbn in Ui. lia.
    + unfold contents. cbn [heap_ queues]. rewrite map_app. f_equal.
      * apply map_ext_in. intros s I. apply In_nth_error in I. destruct I as [i E]. apply (Old i s E).
      * cbn [map]. unfold view, s0. cbn [s_len s_off s_arr]. rewrite cells_last. cbn [skipn]. rewrite firstn_all. reflexivity.
    + split; [cbn [heap_]; rewrite app_length; lia|]. cbn [heap_ queues]. intros a La Na. split; [apply cells_app, La|].
      intros j s E. destruct (Nat.lt_ge_cases j (length (queues m))) as [L|L].
      * rewrite nth_error_app1 in E by exact L. eauto.
      * rewrite nth_error_app2 in E by exact L. destruct (j - length (queues m)) as [|k]; [|destruct k; discriminate].
        injection E as <-. intros [_ U]. cbn in U. lia.
Qed.

Lemma view_nth m i s : separate m -> nth_error (queues m) i = Some s ->
  nth_error (contents m) i = Some (view (heap_ m) s) /\ length (view (heap_ m) s) = s_len s.
Proof. intros S E. rewrite contents_nth, E. split; [reflexivity|]. apply view_length, (proj1 S i s E). Qed.

Lemma queues_replace m m' i l : contents m' = replace (contents m) i l -> nth_error (queues m) i <> None ->
  length (queues m') = length (queues m).
Proof.
  intros E N. apply nth_error_Some in N. apply (f_equal (@length _)) in E. unfold replace, contents in E.
  rewrite !app_length, firstn_length, skipn_length, !map_length in E. cbn in E. lia.
Qed.

Lemma exec_spec o m : separate m ->
  match exec nil_ o m with
  | Ret (a, m') => fifo o (contents m) = Some (a, contents m') /\ separate m' /\ frames m m'
  | Panic => fifo o (contents m) = None
  | NoFuel => False
  end.
Proof.
  intros S. destruct o as [xs|i|i|i|i n|i xs extra|i|i dst extra|i dst extra]; cbn [exec fifo].
  - destruct (New_spec m xs S) as (S' & C & F). rewrite C. auto.
  - unfold Len, queue_at. destruct (nth_error (queues m) i) as [s|] eqn:E; cbn [bind]; rewrite ?contents_nth, E; cbn [option_map]; [|reflexivity].
    rewrite (view_length _ _ (proj1 S i s E)). auto using frames_refl.
  - unfold Any, Len, queue_at. destruct (nth_error (queues m) i) as [s|] eqn:E; cbn [bind]; rewrite ?contents_nth, E; cbn [option_map]; [|reflexivity].
    pose proof (view_length _ _ (proj1 S i s E)) as L. destruct (view (heap_ m) s) as [|x v]; cbn in L; rewrite <- L; cbn; auto using frames_refl.
  - unfold Pop, queue_at. destruct (nth_error (queues m) i) as [s|] eqn:E; cbn [bind]; rewrite ?contents_nth, E; cbn [option_map]; [|reflexivity].
    pose proof (view_length _ _ (proj1 S i s E)) as L. destruct (view (heap_ m) s) as [|x v] eqn:V; [reflexivity|]. cbn in L.
    destruct (Drop_spec m i s 1 S E ltac:(lia)) as (m' & D & S' & C & F1 & F2). change (Z.of_nat 1) with 1%Z in D. rewrite D. cbn [bind].
    rewrite C, V. cbn [skipn]. split; [reflexivity|]. split; [exact S'|split; [exact F1|exact F2]].
  - destruct (nth_error (queues m) i) as [s|] eqn:E.
    2:{ unfold Drop, queue_at. rewrite contents_nth, E. reflexivity. }
    rewrite contents_nth, E. cbn [option_map]. rewrite (view_length _ _ (proj1 S i s E)).
    destruct (Z.leb_spec 0 n); cbn [andb].
    + destruct (Z.leb_spec n (Z.of_nat (s_len s))).
      * destruct (Drop_spec m i s (Z.to_nat n) S E ltac:(lia)) as (m' & D & S' & C & F1 & F2). rewrite Z2Nat.id in D by assumption.
        rewrite D. cbn [bind]. rewrite C. split; [reflexivity|]. split; [exact S'|split; [exact F1|exact F2]].
      * unfold Drop, queue_at. rewrite E. cbn [bind]. unfold sl_from. destruct (Z.ltb_spec (Z.of_nat (s_len s)) n); [|lia].
        rewrite orb_true_r. reflexivity.
    + unfold Drop, queue_at. rewrite E. cbn [bind]. unfold sl_from. destruct (Z.ltb_spec n 0); [|lia]. reflexivity.
  - destruct (nth_error (queues m) i) as [s|] eqn:E.
    2:{ unfold Push, queue_at. rewrite contents_nth, E. reflexivity. }
    rewrite contents_nth, E. cbn [option_map]. destruct (Push_spec m i s xs extra S E) as (m' & -> & S' & C & F). cbn [bind]. rewrite C. auto.
  - destruct (nth_error (queues m) i) as [s|] eqn:E.
    2:{ unfold Clear, queue_at. rewrite contents_nth, E. reflexivity. }
    rewrite contents_nth, E. cbn [option_map]. destruct (Clear_spec m i s S E) as (m' & -> & S' & C & F). cbn [bind]. rewrite C. auto.
  - unfold PopTo, Pop, queue_at. destruct (nth_error (queues m) i) as [s|] eqn:E; cbn [bind]; rewrite ?contents_nth, E; cbn [option_map]; [|reflexivity].
    pose proof (view_length _ _ (proj1 S i s E)) as L. destruct (view (heap_ m) s) as [|x v] eqn:V; [reflexivity|]. cbn in L.
    destruct (Drop_spec m i s 1 S E ltac:(lia)) as (m1 & D & S1 & C1 & F1 & F2). change (Z.of_nat 1) with 1%Z in D. rewrite D. cbn [bind].
    rewrite V in C1. cbn [skipn] in C1. rewrite <- C1, contents_nth.
    destruct (nth_error (queues m1) dst) as [d|] eqn:Ed; cbn [option_map].
    + destruct (Push_spec m1 dst d [x] extra S1 Ed) as (m2 & -> & S2 & C2 & F3). cbn [bind]. rewrite C2.
      split; [reflexivity|]. split; [exact S2|]. eapply frames_trans; [split; [exact F1|exact F2]|exact F3].
    + unfold Push, queue_at. rewrite Ed. reflexivity.
  - unfold FlushTo, queue_at. rewrite !contents_nth.
    destruct (nth_error (queues m) dst) as [d|] eqn:Ed; destruct (nth_error (queues m) i) as [s|] eqn:E; cbn [bind option_map]; try reflexivity.
    destruct (sl_append nil_ (heap_ m) d (view (heap_ m) s) extra) as [h' d'] eqn:Ap.
    destruct (append_spec m dst d _ extra S Ed h' d' Ap) as [Ch V]. destruct (put_spec m dst d h' d' S Ed Ch) as (P1 & P2 & P3).
    set (m1 := put m dst h' d') in *.
    destruct (nth_error (queues m1) i) as [s1|] eqn:E1.
    2:{ exfalso. apply nth_error_None in E1. assert (nth_error (queues m) i <> None) by congruence. apply nth_error_Some in H.
        unfold m1 in E1. cbn [put queues] in E1. rewrite set_nth_length in E1. lia. }
    destruct (Clear_spec m1 i s1 P1 E1) as (m2 & -> & S2 & C2 & F2). cbn [bind]. rewrite C2, P2, V. split; [reflexivity|]. split; [exact S2|].
    eapply frames_trans; [|exact F2]. split; [apply Ch|exact P3].
Qed.

Lemma exec_all_spec os : forall m, separate m ->
  match exec_all nil_ os m with
  | Ret (as_, m') => fifo_all os (contents m) = Some (as_, contents m') /\ separate m' /\ frames m m'
  | Panic => fifo_all os (contents m) = None
  | NoFuel => False
  end.
Proof.
  induction os as [|o os IH]; intros m S; cbn [exec_all fifo_all].
  - auto using frames_refl.
  - pose proof (exec_spec o m S) as H. destruct (exec nil_ o m) as [[a m1]| |]; cbn [bind].
    + destruct H as (-> & S1 & F1). specialize (IH m1 S1). destruct (exec_all nil_ os m1) as [[as_ m2]| |]; cbn [bind].
      * destruct IH as (-> & S2 & F2). split; [reflexivity|]. split; [exact S2|]. eapply frames_trans; eassumption.
      * rewrite IH. reflexivity.
      * exact IH.
    + rewrite H. reflexivity.
    + exact H.
Qed.
End Proofs.
