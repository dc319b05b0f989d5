(** * WordLineProofs: the example segmenter breaks at line ends. *)

From Verif Require Import Base Utf8 Unicode UnicodeData Token Stream StreamSpec Tokenizer Words FilterSpec StreamProofs Utf8Proofs WordsProofs GeneratorProofs LineSpec.

(** Classes that no rule asks for in the left context. *)
Definition inert (c : wbclass) : bool :=
  match c with WOther | WNewline | WCR | WLF | WExtend | WFormat | WZWJ => true | _ => false end.
Definition alike (c d : wbclass) : Prop := c = d \/ (inert c = true /\ inert d = true).
Definition cx_alike (x y : ctx) : Prop :=
  lastc x = lastc y /\ alike (p1 x) (p1 y) /\ alike (p2 x) (p2 y) /\ odd_ri x = odd_ri y.

Definition tests (c : wbclass) := (is_ahl c, is_mid c, is_heb c, is_dq c, is_num c, is_midn c, is_kat c, is_exn c, is_ri c).
Lemma alike_tests c d : alike c d -> tests c = tests d.
Proof. intros [->|[A B]]; [reflexivity|]. destruct c; try discriminate A; destruct d; try discriminate B; reflexivity. Qed.

Lemma boundary_alike x y r l1 l2 : cx_alike x y ->
  alike (next_class l1) (next_class l2) -> boundary x r l1 = boundary y r l2.
Proof.
  intros (L & A & B & O) N. apply alike_tests in A, B, N. unfold tests in *.
  injection A as a1 a2 a3 a4 a5 a6 a7 a8 a9. injection B as b1 b2 b3 b4 b5 b6 b7 b8 b9.
  injection N as n1 n2 n3 n4 n5 n6 n7 n8 n9.
  unfold boundary. rewrite L, O, a1, a2, a3, a4, a5, a6, a7, a8, a9, b1, b3, b5, n1, n3, n5. reflexivity.
Qed.

Lemma advance_alike x y r : cx_alike x y -> cx_alike (advance x r) (advance y r).
Proof.
  intros (L & A & B & O). unfold advance. rewrite L.
  destruct (is_ign (wbc r) && negb (is_nl (lastc y))); [now repeat split|].
  split; [reflexivity|]. split; [now left|]. split; [exact A|]. cbn [odd_ri].
  apply alike_tests in A. unfold tests in A. injection A as _ _ _ _ _ _ _ _ E. now rewrite E, O.
Qed.

Lemma alike_refl c : alike c c. Proof. now left. Qed.

Lemma seg_loop_alike l : forall x y cur, cx_alike x y -> seg_loop x cur l = seg_loop y cur l.
Proof.
  induction l as [|[r b] l IH]; intros x y cur H; [reflexivity|]. cbn [seg_loop].
  rewrite (boundary_alike x y r l l H (alike_refl _)). pose proof (advance_alike x y r H) as H'.
  destruct (boundary y r l); [f_equal|]; apply IH, H'.
Qed.

(** The piece of a line end, and then a fresh start. *)
Definition restart (l : list (N * string)) : list string :=
  match l with [] => [] | (r, b) :: rest => seg_loop (advance (mkCtx WOther WOther WOther false) r) b rest end.

Lemma after_lf cx cur l : lastc cx = WLF -> inert (p1 cx) = true -> seg_loop cx cur l = cur :: restart l.
Proof.
  intros L P. destruct l as [|[r b] l]; [reflexivity|]. cbn [seg_loop].
  assert (B : boundary cx r l = true) by (unfold boundary; rewrite L; reflexivity).
  rewrite B. f_equal. cbn [restart]. apply seg_loop_alike. unfold advance. rewrite L. cbn [lastc is_nl negb].
  rewrite andb_false_r, andb_true_r.
  assert (R : is_ri (p1 cx) = false) by (destruct (p1 cx); discriminate || reflexivity).
  destruct (is_ign (wbc r)) eqn:I.
  - assert (Q : is_ri (wbc r) = false) by (destruct (wbc r); discriminate || reflexivity). rewrite Q.
    split; [reflexivity|]. split; [|split; [|reflexivity]]; right; split; cbn [p1 p2]; try reflexivity; try exact P.
    generalize dependent (wbc r). intros c I _. destruct c; discriminate || reflexivity.
  - split; [reflexivity|]. split; [now left|]. split; [right; split; [exact P|reflexivity]|]. cbn [odd_ri p1]. rewrite R. reflexivity.
Qed.

Lemma wbc_lf : wbc 10 = WLF. Proof. vm_compute. reflexivity. Qed.
Lemma wbc_cr : wbc 13 = WCR. Proof. vm_compute. reflexivity. Qed.

Definition brk (r : N) : Prop := wbc r = WLF \/ wbc r = WCR.

Lemma next_class_app l1 r b l2 : brk r -> alike (next_class (l1 ++ (r, b) :: l2)) (next_class l1).
Proof.
  intros H. induction l1 as [|[q d] l1 IH]; cbn [app next_class].
  - destruct H as [-> | ->]; right; split; reflexivity.
  - destruct (is_ign (wbc q)); [exact IH|now left].
Qed.

(** The class of the last rune. *)
Definition last_class (c : wbclass) (l : list (N * string)) : wbclass := fold_left (fun _ rb => wbc (fst rb)) l c.

Lemma seg_loop_app r b l2 l1 : brk r -> forall cx cur, exists cx', lastc cx' = last_class (lastc cx) l1 /\
  ((wbc r = WLF -> last_class (lastc cx) l1 <> WCR) ->
   seg_loop cx cur (l1 ++ (r, b) :: l2) = seg_loop cx cur l1 ++ seg_loop (advance cx' r) b l2).
Proof.
  intros K. induction l1 as [|[q d] l1 IH]; intros cx cur.
  - exists cx. split; [reflexivity|]. cbn [app seg_loop last_class fold_left]. intros NC.
    assert (B : boundary cx r l2 = true).
    { unfold boundary. destruct K as [K|K]; rewrite K; destruct (lastc cx); try reflexivity. exfalso. apply NC; auto. }
    now rewrite B.
  - assert (LA : lastc (advance cx q) = wbc q) by (unfold advance; destruct (_ && _); reflexivity).
    cbn [app seg_loop last_class fold_left fst].
    rewrite (boundary_alike cx cx q (l1 ++ (r, b) :: l2) l1); [|repeat split; now left|now apply next_class_app].
    destruct (boundary cx q l1).
    + destruct (IH (advance cx q) d) as (cx' & L & E). exists cx'. rewrite LA in L. split; [exact L|].
      intros NC. cbn [app]. f_equal. apply E. rewrite LA. exact NC.
    + destruct (IH (advance cx q) (cur ++ d)%string) as (cx' & L & E). exists cx'. rewrite LA in L. split; [exact L|].
      intros NC. apply E. rewrite LA. exact NC.
Qed.

(** Only U+000D is in class CR. *)
Lemma lookup_class l q c : wb_lookup l q = c -> c <> WOther -> exists lo hi, In (lo, hi, c) l /\ (lo <= q <= hi)%N.
Proof.
  induction l as [|[[lo hi] d] l IH]; cbn [wb_lookup]; intros H N; [congruence|].
  destruct (q <? lo)%N eqn:A; [congruence|]. destruct (q <=? hi)%N eqn:B.
  - subst d. exists lo, hi. split; [now left|]. apply N.ltb_ge in A. apply N.leb_le in B. lia.
  - destruct (IH H N) as (lo' & hi' & I & R). exists lo', hi'. split; [now right|exact R].
Qed.

Lemma cr_ranges : forallb (fun x => match x with (lo, hi, WCR) => (lo =? 13)%N && (hi =? 13)%N | _ => true end) wb_ranges = true.
Proof. vm_compute. reflexivity. Qed.

Lemma cr_only q : wbc q = WCR -> q = 13%N.
Proof.
  intros H. destruct (lookup_class wb_ranges q WCR H) as (lo & hi & I & R); [discriminate|].
  pose proof cr_ranges as T. rewrite forallb_forall in T. specialize (T _ I). cbn beta iota in T.
  apply andb_true_iff in T as [A B]. apply N.eqb_eq in A, B. lia.
Qed.

Lemma last_class_snoc c l q d : last_class c (l ++ [(q, d)]) = wbc q.
Proof. unfold last_class. rewrite fold_left_app. reflexivity. Qed.

Lemma last_cr a r d l : chunks a = (r, d) :: l -> last_class (wbc r) l = WCR -> exists a', a = (a' ++ CR)%string.
Proof.
  intros E L.
  assert (X : exists l' q x, chunks a = l' ++ [(q, x)] /\ wbc q = WCR).
  { destruct l as [|y l0] using rev_ind; [exists [], r, d; split; [exact E|exact L]|].
    destruct y as [q x]. rewrite last_class_snoc in L. exists ((r, d) :: l0), q, x. split; [exact E|exact L]. }
  destruct X as (l' & q & x & E' & Q). apply cr_only in Q. subst q.
  exists (sconcat (map snd l')). rewrite <- (chunks_text a) at 1. rewrite E', map_app, sconcat_app.
  destruct (chunk_view a 13 x) as [[_ ->]|Bad]; [rewrite E'; apply in_or_app; right; now left| |discriminate Bad].
  reflexivity.
Qed.

Lemma word_segments_eq s : word_segments s = restart (chunks s).
Proof. reflexivity. Qed.

Lemma advance_nl cx r : brk r -> lastc (advance cx r) = wbc r /\ p1 (advance cx r) = wbc r.
Proof. intros K. unfold advance. destruct K as [-> | ->]; cbn [is_ign andb]; split; reflexivity. Qed.

Lemma lf_piece cx l : seg_loop (advance cx 10) LF l = LF :: restart l.
Proof.
  destruct (advance_nl cx 10) as [A B]; [left; apply wbc_lf|]. apply after_lf; [now rewrite A, wbc_lf|]. rewrite B, wbc_lf. reflexivity.
Qed.

Lemma crlf_piece cx l : seg_loop (advance cx 13) CR ((10%N, LF) :: l) = (CR ++ LF)%string :: restart l.
Proof.
  destruct (advance_nl cx 13) as [A B]; [right; apply wbc_cr|]. cbn [seg_loop].
  assert (F : boundary (advance cx 13) 10 l = false) by (unfold boundary; rewrite A, wbc_lf, wbc_cr; reflexivity).
  rewrite F. destruct (advance_nl (advance cx 13) 10) as [A' B']; [left; apply wbc_lf|].
  apply after_lf; [now rewrite A', wbc_lf|]. rewrite B', wbc_lf. reflexivity.
Qed.

Lemma restart_break l1 r b l2 piece rest : brk r ->
  (wbc r = WLF -> forall q d l, l1 = (q, d) :: l -> last_class (wbc q) l <> WCR) ->
  (forall cx, seg_loop (advance cx r) b l2 = piece :: rest) ->
  restart (l1 ++ (r, b) :: l2) = restart l1 ++ piece :: rest.
Proof.
  intros K NC P. destruct l1 as [|[q d] l1]; cbn [app restart]; [apply P|].
  destruct (seg_loop_app r b l2 l1 K (advance (mkCtx WOther WOther WOther false) q) d) as (cx' & _ & E).
  assert (LA : forall cx, lastc (advance cx q) = wbc q) by (intros cx; unfold advance; destruct (_ && _); reflexivity).
  rewrite LA in E. rewrite E, P; [reflexivity|]. intros H. exact (NC H q d l1 eq_refl).
Qed.

Theorem word_segments_break : breaks_lines word_segments.
Proof.
  intros a e b H. rewrite !word_segments_eq. destruct H as [-> |[-> H]].
  - rewrite chunks_app by reflexivity. change (chunks ((CR ++ LF) ++ b)) with ((13%N, CR) :: (10%N, LF) :: chunks b).
    apply restart_break; [right; apply wbc_cr|rewrite wbc_cr; discriminate|intros cx; apply crlf_piece].
  - rewrite chunks_app by reflexivity. change (chunks (LF ++ b)) with ((10%N, LF) :: chunks b).
    apply restart_break; [left; apply wbc_lf| |intros cx; apply lf_piece].
    intros _ q d l E L. destruct (last_cr a q d l E L) as [a' ->]. exact (H a' eq_refl).
Qed.
