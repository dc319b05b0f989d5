(** * WordSplitProofs: the word split function is a split function in the sense of C14, and cuts a text as Words.v does. *)

From Verif Require Import Base Utf8 Unicode UnicodeData Token Stream StreamSpec Tokenizer Words WordSplit Scanner ScannerSpec
  StreamProofs Utf8Proofs WordsProofs ScannerProofs.

Local Opaque wbc.
Local Arguments wbc : simpl never.

(** One rune off the front. *)
Lemma chunks_step c1 s1 : exists r b s', chunks (String c1 s1) = (r, b) :: chunks s' /\ String c1 s1 = (b ++ s')%string /\ b <> EmptyString /\
  (4 <= String.length (String c1 s1) -> forall x, chunks (String c1 s1 ++ x)%string = (r, b) :: chunks (s' ++ x)%string).
Proof.
  cbn [chunks String.append].
  assert (One : exists r b s', (RuneError, String c1 EmptyString) :: chunks s1 = (r, b) :: chunks s' /\ String c1 s1 = (b ++ s')%string /\ b <> EmptyString /\
    (forall x, (RuneError, String c1 EmptyString) :: chunks (s1 ++ x)%string = (r, b) :: chunks (s' ++ x)%string)).
  { exists RuneError, (String c1 EmptyString), s1. repeat split. discriminate. }
  destruct (byte_of c1 <? 128)%N.
  { exists (byte_of c1), (String c1 EmptyString), s1. repeat split. discriminate. }
  assert (W : forall Q : Prop, (exists r b s', (RuneError, String c1 EmptyString) :: chunks s1 = (r, b) :: chunks s' /\ String c1 s1 = (b ++ s')%string /\ b <> EmptyString /\
      (Q -> forall x, (RuneError, String c1 EmptyString) :: chunks (s1 ++ x)%string = (r, b) :: chunks (s' ++ x)%string))).
  { intros Q. destruct One as (r & b & s' & A & B & C & D). exists r, b, s'. auto. }
  destruct (in_range 194 223 (byte_of c1)).
  { destruct s1 as [|c2 s2].
    - exists RuneError, (String c1 EmptyString), EmptyString. repeat split; [discriminate|]. cbn. lia.
    - cbn [String.append]. destruct (cont (byte_of c2)); [|apply W].
      exists (rune2 (byte_of c1) (byte_of c2)), (String c1 (String c2 EmptyString)), s2. repeat split. discriminate. }
  destruct (in_range 224 239 (byte_of c1)).
  { destruct s1 as [|c2 [|c3 s3]].
    - exists RuneError, (String c1 EmptyString), EmptyString. repeat split; [discriminate|]. cbn. lia.
    - exists RuneError, (String c1 EmptyString), (String c2 EmptyString). repeat split; [discriminate|]. cbn. lia.
    - cbn [String.append]. destruct (in_range (lo3 (byte_of c1)) (hi3 (byte_of c1)) (byte_of c2) && cont (byte_of c3))%bool; [|apply W].
      exists (rune3 (byte_of c1) (byte_of c2) (byte_of c3)), (String c1 (String c2 (String c3 EmptyString))), s3. repeat split. discriminate. }
  destruct (in_range 240 244 (byte_of c1)); [|apply W].
  destruct s1 as [|c2 [|c3 [|c4 s4]]].
  - exists RuneError, (String c1 EmptyString), EmptyString. repeat split; [discriminate|]. cbn. lia.
  - exists RuneError, (String c1 EmptyString), (String c2 EmptyString). repeat split; [discriminate|]. cbn. lia.
  - exists RuneError, (String c1 EmptyString), (String c2 (String c3 EmptyString)). repeat split; [discriminate|]. cbn. lia.
  - cbn [String.append]. destruct (in_range (lo4 (byte_of c1)) (hi4 (byte_of c1)) (byte_of c2) && cont (byte_of c3) && cont (byte_of c4))%bool; [|apply W].
    exists (rune4 (byte_of c1) (byte_of c2) (byte_of c3) (byte_of c4)), (String c1 (String c2 (String c3 (String c4 EmptyString)))), s4. repeat split. discriminate.
Qed.

Lemma chunks_cons s r b l : chunks s = (r, b) :: l -> exists s', l = chunks s' /\ s = (b ++ s')%string /\ b <> EmptyString /\
  (4 <= String.length s -> forall x, chunks (s ++ x)%string = (r, b) :: chunks (s' ++ x)%string).
Proof.
  destruct s as [|c s]; [discriminate|]. destruct (chunks_step c s) as (r' & b' & s' & E & A & B & C). intros H. rewrite H in E. injection E as -> -> ->.
  exists s'. auto.
Qed.

Lemma chunks_empty s : chunks s = [] -> s = EmptyString.
Proof. destruct s as [|c s]; [reflexivity|]. destruct (chunks_step c s) as (r & b & s' & E & _). rewrite E. discriminate. Qed.

(** ** What is settled stays *)

Lemma settled_stable n : forall s, String.length s = n -> forall x, exists y, chunks (s ++ x)%string = settled n (chunks s) ++ y.
Proof.
  induction n as [n IH] using (well_founded_induction lt_wf). intros s L x. destruct (chunks s) as [|[r b] rest] eqn:E.
  - exists (chunks (s ++ x)%string). reflexivity.
  - cbn [settled]. destruct (Nat.leb_spec 4 n) as [H|H].
    + destruct (chunks_cons _ _ _ _ E) as (s' & -> & Es & Nb & St). rewrite St by lia.
      assert (Ls : String.length s' = n - String.length b) by (rewrite <- L, Es, slen_app; lia).
      destruct (IH (n - String.length b)) with (s := s') (x := x) as [y Hy]; [|exact Ls|].
      * destruct b; [congruence|]. rewrite Es, slen_app in L. cbn in L |- *. lia.
      * exists y. rewrite Hy. reflexivity.
    + exists (chunks (s ++ x)%string). reflexivity.
Qed.

Lemma next_known_class l y c : next_known l = Some c -> next_class (l ++ y) = c.
Proof. induction l as [|[r b] l IH]; cbn; [discriminate|]. destruct (is_ign (wbc r)); [exact IH|congruence]. Qed.

(** [boundary] as a function of the class ahead. *)
Lemma boundary_ahead cx r l1 l2 : (looks_ahead (wbc r) = true -> next_class l1 = next_class l2) -> boundary cx r l1 = boundary cx r l2.
Proof.
  intros H. unfold boundary, looks_ahead in *. destruct (is_mid (wbc r)) eqn:E1; [cbn in H; rewrite (H eq_refl); reflexivity|].
  destruct (is_midn (wbc r)) eqn:E2; [cbn in H; rewrite (H eq_refl); reflexivity|].
  destruct (is_dq (wbc r)) eqn:E3; [cbn in H; rewrite (H eq_refl); reflexivity|].
  rewrite !andb_false_r. cbn [andb]. reflexivity.
Qed.

Lemma first_word_stable l : forall cx cur p y, first_word cx cur l = Some p -> exists ps, seg_loop cx cur (l ++ y) = p :: ps.
Proof.
  induction l as [|[r b] l IH]; intros cx cur p y H; cbn [first_word] in H; [discriminate|]. cbn [app seg_loop].
  destruct (looks_ahead (wbc r) && match next_known l with None => true | Some _ => false end)%bool eqn:E; [discriminate|].
  assert (B : boundary cx r (l ++ y) = boundary cx r l).
  { apply boundary_ahead. intros La. rewrite La in E. cbn in E. destruct (next_known l) as [c|] eqn:N; [|discriminate].
    rewrite (next_known_class l y c N). pose proof (next_known_class l [] c N) as G. rewrite app_nil_r in G. congruence. }
  rewrite B. destruct (boundary cx r l).
  - injection H as ->. eexists. reflexivity.
  - apply IH, H.
Qed.

Lemma word_split_stable d p x : word_split d false = Some p -> word_split (d ++ x)%string true = Some p.
Proof.
  unfold word_split, word_segments. intros H. destruct (settled_stable _ d eq_refl x) as [y Ey].
  destruct (settled (String.length d) (chunks d)) as [|[r b] rest]; [discriminate|]. rewrite Ey. cbn [app].
  destruct (first_word_stable _ _ _ _ y H) as [ps Es]. unfold start_ctx in Es. rewrite Es. reflexivity.
Qed.

Lemma word_split_total d : d <> EmptyString -> word_split d true <> None.
Proof.
  intros N. unfold word_split. destruct (word_segments_ok d) as [A _]. destruct (word_segments d); [|discriminate]. cbn in A. congruence.
Qed.

Lemma word_split_prefix_eof d p : word_split d true = Some p -> p <> EmptyString /\ exists d', d = (p ++ d')%string.
Proof.
  unfold word_split. intros H. destruct (word_segments_ok d) as [A B]. destruct (word_segments d) as [|q l]; [discriminate|]. injection H as ->.
  split; [apply B; left; reflexivity|]. exists (sconcat l). symmetry. exact A.
Qed.

Lemma word_split_ok : split_ok word_split.
Proof.
  constructor.
  - intros d [|] p H; [apply word_split_prefix_eof, H|]. pose proof (word_split_stable d p EmptyString H) as S. rewrite sapp_nil_r' in S. apply word_split_prefix_eof, S.
  - exact word_split_total.
  - intros d p x. apply word_split_stable.
Qed.

(** ** Words can be found one after the other *)

(** What the rules ask of a class other than the one directly before. *)
Definition asked (c : wbclass) := (is_ahl c, is_heb c, is_num c, is_kat c, is_exn c, is_ri c, (is_mid c, is_midn c, is_dq c)).

Record alike (cx cx' : ctx) (l : list (N * string)) : Prop := {
  al_last : lastc cx = lastc cx';
  al_p1 : asked (p1 cx) = asked (p1 cx');
  al_ri : is_ri (p1 cx) = true -> odd_ri cx = odd_ri cx';
  al_mid : is_mid (p1 cx) = true -> is_ahl (next_class l) = true -> is_ahl (p2 cx) = is_ahl (p2 cx');
  al_dq : is_dq (p1 cx) = true -> is_heb (next_class l) = true -> is_heb (p2 cx) = is_heb (p2 cx');
  al_midn : is_midn (p1 cx) = true -> is_num (next_class l) = true -> is_num (p2 cx) = is_num (p2 cx')
}.

Lemma asked_parts c c' : asked c = asked c' -> is_ahl c = is_ahl c' /\ is_heb c = is_heb c' /\ is_num c = is_num c' /\ is_kat c = is_kat c' /\
  is_exn c = is_exn c' /\ is_ri c = is_ri c' /\ is_mid c = is_mid c' /\ is_midn c = is_midn c' /\ is_dq c = is_dq c'.
Proof. unfold asked. intros E. injection E. tauto. Qed.

Lemma next_class_cons r b l : is_ign (wbc r) = false -> next_class ((r, b) :: l) = wbc r.
Proof. intros H. cbn. rewrite H. reflexivity. Qed.

Lemma three a b c d : (b = true -> c = true -> a = d) -> (a && b && c)%bool = (d && b && c)%bool.
Proof. destruct b, c; cbn; intros H; rewrite ?andb_true_r, ?andb_false_r; auto. Qed.

Lemma alike_boundary cx cx' r b l : alike cx cx' ((r, b) :: l) -> boundary cx r l = boundary cx' r l.
Proof.
  intros [A1 A2 A3 A4 A5 A6]. destruct (asked_parts _ _ A2) as (Q1 & Q2 & Q3 & Q4 & Q5 & Q6 & Q7 & Q8 & Q9).
  unfold boundary. rewrite <- A1.
  destruct (match lastc cx with WCR => _ | _ => _ end); [reflexivity|].
  destruct (is_nl (lastc cx)); [reflexivity|]. destruct (is_nl (wbc r)); [reflexivity|].
  destruct (match lastc cx with WZWJ => _ | _ => _ end); [reflexivity|].
  destruct (is_ws (lastc cx) && is_ws (wbc r))%bool; [reflexivity|].
  destruct (is_ign (wbc r)) eqn:Ig; [reflexivity|].
  rewrite (next_class_cons r b l Ig) in A4, A5, A6.
  rewrite <- Q1, <- Q2, <- Q3, <- Q4, <- Q5, <- Q6, <- Q7, <- Q8, <- Q9.
  rewrite (three _ _ _ _ A4), (three _ _ _ _ A5), (three _ _ _ _ A6).
  replace (is_ri (p1 cx) && is_ri (wbc r) && odd_ri cx')%bool with (is_ri (p1 cx) && is_ri (wbc r) && odd_ri cx)%bool; [reflexivity|].
  destruct (is_ri (p1 cx)); [rewrite A3 by reflexivity|]; reflexivity.
Qed.

Lemma ign_asked c : is_ign c = true -> asked c = asked WOther.
Proof. destruct c; cbn; intros; try discriminate; reflexivity. Qed.

Lemma alike_advance cx cx' r b l : alike cx cx' ((r, b) :: l) -> alike (advance cx r) (advance cx' r) l.
Proof.
  intros [A1 A2 A3 A4 A5 A6]. unfold advance. rewrite <- A1.
  destruct (is_ign (wbc r)) eqn:Ig; cbn [andb].
  - assert (N : next_class ((r, b) :: l) = next_class l) by (cbn; rewrite Ig; reflexivity). rewrite N in A4, A5, A6.
    destruct (is_nl (lastc cx)); cbn [negb].
    + destruct (asked_parts _ _ (ign_asked _ Ig)) as (Q1 & Q2 & Q3 & Q4 & Q5 & Q6 & Q7 & Q8 & Q9).
      constructor; cbn [lastc p1 p2 odd_ri]; auto; rewrite ?Q6, ?Q7, ?Q8, ?Q9; discriminate.
    + constructor; cbn [lastc p1 p2 odd_ri]; auto.
  - destruct (asked_parts _ _ A2) as (Q1 & Q2 & Q3 & Q4 & Q5 & Q6 & Q7 & Q8 & Q9).
    constructor; cbn [lastc p1 p2 odd_ri]; auto. intros R. rewrite R, <- Q6. destruct (is_ri (p1 cx)); [rewrite A3 by reflexivity|]; reflexivity.
Qed.

Lemma alike_loop l : forall cx cx' cur, alike cx cx' l -> seg_loop cx cur l = seg_loop cx' cur l.
Proof.
  induction l as [|[r b] l IH]; intros cx cx' cur A; cbn [seg_loop]; [reflexivity|].
  rewrite (alike_boundary _ _ _ _ _ A). pose proof (alike_advance _ _ _ _ _ A) as A'.
  rewrite (IH _ _ b A'), (IH _ _ (cur ++ b)%string A'). reflexivity.
Qed.

(** In every context met, a line break directly before is also the last rune that counts. *)
Definition sane (cx : ctx) : Prop := is_nl (lastc cx) = true -> p1 cx = lastc cx.

Lemma advance_sane cx r : sane (advance cx r).
Proof.
  unfold sane, advance. destruct (is_ign (wbc r) && negb (is_nl (lastc cx)))%bool eqn:E; cbn [lastc p1]; [|auto].
  apply andb_prop in E. destruct E as [E _]. destruct (wbc r); cbn in *; discriminate.
Qed.

Lemma nl_asked c : is_nl c = true -> asked c = asked WOther.
Proof. destruct c; cbn; intros; try discriminate; reflexivity. Qed.

(** After a boundary, what came before no longer matters. *)
Lemma boundary_restart cx r l : sane cx -> boundary cx r l = true -> alike (advance cx r) (advance start_ctx r) l.
Proof.
  intros Sn B. unfold advance, start_ctx. cbn [lastc p1 p2 odd_ri is_nl negb is_ri]. rewrite andb_true_r.
  destruct (is_ign (wbc r)) eqn:Ig.
  - cbn [andb]. destruct (asked_parts _ _ (ign_asked _ Ig)) as (Q1 & Q2 & Q3 & Q4 & Q5 & Q6 & Q7 & Q8 & Q9).
    destruct (is_nl (lastc cx)) eqn:Nl; cbn [negb].
    + constructor; cbn [lastc p1 p2 odd_ri]; rewrite ?Q6, ?Q7, ?Q8, ?Q9; try discriminate; [reflexivity|exact (ign_asked _ Ig)].
    + exfalso. unfold boundary in B. rewrite Nl, Ig in B. assert (Nc : is_nl (wbc r) = false) by (destruct (wbc r); cbn in *; congruence). rewrite Nc in B.
      destruct (match lastc cx with WCR => _ | _ => _ end); [discriminate|]. destruct (match lastc cx with WZWJ => _ | _ => _ end); [discriminate|].
      destruct (is_ws (lastc cx) && is_ws (wbc r))%bool; discriminate.
  - cbn [andb]. unfold boundary in B.
    assert (Nl : is_nl (lastc cx) = true -> asked (p1 cx) = asked WOther) by (intros H; rewrite (Sn H); apply nl_asked, H).
    assert (G : (is_nl (lastc cx) = true \/ is_nl (wbc r) = true) \/
      (is_ahl (p1 cx) && is_mid (wbc r) && is_ahl (next_class l))%bool = false /\
      (is_heb (p1 cx) && is_dq (wbc r) && is_heb (next_class l))%bool = false /\
      (is_num (p1 cx) && is_midn (wbc r) && is_num (next_class l))%bool = false /\
      (is_ri (p1 cx) && is_ri (wbc r) && odd_ri cx)%bool = false).
    { destruct (is_nl (lastc cx)); [auto|]. destruct (is_nl (wbc r)); [auto|]. right. rewrite Ig in B.
      repeat match type of B with (if ?c then false else _) = true => destruct c eqn:?; [discriminate|] end. auto. }
    clear B. constructor; cbn [lastc p1 p2 odd_ri]; [reflexivity|reflexivity| | | |].
    + intros R. rewrite R. destruct (is_ri (p1 cx)) eqn:R1; [|reflexivity].
      destruct G as [[H|H]|(_ & _ & _ & H)].
      * apply Nl, asked_parts in H. destruct H as (_ & _ & _ & _ & _ & H & _). rewrite R1 in H. discriminate.
      * destruct (wbc r); discriminate.
      * rewrite R in H. cbn in H. rewrite H. reflexivity.
    + intros H1 H2. change (is_ahl WOther) with false. destruct G as [[H|H]|(H & _)].
      * apply Nl, asked_parts in H. apply H.
      * destruct (wbc r); discriminate.
      * rewrite H1, H2, !andb_true_r in H. exact H.
    + intros H1 H2. change (is_heb WOther) with false. destruct G as [[H|H]|(_ & H & _)].
      * apply Nl, asked_parts in H. apply H.
      * destruct (wbc r); discriminate.
      * rewrite H1, H2, !andb_true_r in H. exact H.
    + intros H1 H2. change (is_num WOther) with false. destruct G as [[H|H]|(_ & _ & H & _)].
      * apply Nl, asked_parts in H. apply H.
      * destruct (wbc r); discriminate.
      * rewrite H1, H2, !andb_true_r in H. exact H.
Qed.

Lemma seg_loop_first l : forall s cx cur, sane cx -> l = chunks s ->
  exists p s', seg_loop cx cur l = p :: word_segments s' /\ (cur ++ s)%string = (p ++ s')%string.
Proof.
  induction l as [|[r b] l IH]; intros s cx cur Sn E; cbn [seg_loop].
  - symmetry in E. apply chunks_empty in E. subst s. exists cur, EmptyString. split; reflexivity.
  - symmetry in E. destruct (chunks_cons _ _ _ _ E) as (s' & El & Es & Nb & _). destruct (boundary cx r l) eqn:B.
    + exists cur, s. split; [|reflexivity]. f_equal. unfold word_segments. rewrite E. apply alike_loop, boundary_restart; assumption.
    + destruct (IH s' (advance cx r) (cur ++ b)%string (advance_sane cx r) El) as (p & s2 & Hp & Ha). exists p, s2. split; [exact Hp|].
      rewrite Es. rewrite sapp_assoc in Ha. exact Ha.
Qed.

Lemma word_segments_first s : s <> EmptyString -> exists p s', word_segments s = p :: word_segments s' /\ s = (p ++ s')%string.
Proof.
  intros N. destruct (chunks s) as [|[r b] l] eqn:E; [exfalso; apply N, chunks_empty, E|].
  destruct (chunks_cons _ _ _ _ E) as (s' & El & Es & Nb & _).
  destruct (seg_loop_first l s' (advance start_ctx r) b (advance_sane _ _) El) as (p & s2 & Hp & Ha).
  exists p, s2. split; [|rewrite Es; exact Ha]. unfold word_segments at 1. rewrite E. exact Hp.
Qed.

Lemma word_split_cuts d : cut_into word_split d (word_segments d).
Proof.
  remember (String.length d) as n eqn:Hn. revert d Hn. induction n as [n IH] using (well_founded_induction lt_wf). intros d ->.
  destruct d as [|c d]; [constructor|].
  destruct (word_segments_first (String c d)) as (p & s' & E & A); [discriminate|]. rewrite E.
  assert (Np : p <> EmptyString) by (apply (word_segments_ok (String c d)); rewrite E; left; reflexivity).
  rewrite A. constructor.
  - rewrite <- A. unfold word_split. rewrite E. reflexivity.
  - apply (IH (String.length s')); [|reflexivity]. rewrite A, slen_app. destruct p; [congruence|]. cbn. lia.
Qed.
