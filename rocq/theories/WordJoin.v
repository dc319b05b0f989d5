(** * WordJoin: replacing words of a text by other words, for C80. *)

From Verif Require Import Base Utf8 Unicode UnicodeData Token Stream StreamSpec Tokenizer Words WordSplit Scanner ScannerSpec
  StreamProofs Utf8Proofs WordsProofs ScannerProofs WordSplitProofs WordStable.
From Verif Require GeneratorProofs.

Local Opaque wbc.
Local Arguments wbc : simpl never.
Notation chunk_list := (list (N * string)).
Notation fresh_start := GeneratorProofs.fresh_start.

(** A boundary between two texts. *)
Definition joint (a b : chunk_list) : Prop :=
  match b with [] => True | (r, _) :: l => boundary (ctx_after start_ctx a) r l = true end.

Lemma settled_nil l : forall cx, settled_before cx l [].
Proof. induction l as [|[r b] l IH]; intros cx; [exact I|]. split; [now rewrite app_nil_r|apply IH]. Qed.

Lemma loop_join l : forall cx cur r b l3, settled_before cx l ((r, b) :: l3) -> boundary (ctx_after cx l) r l3 = true ->
  seg_loop cx cur (l ++ (r, b) :: l3) = seg_loop cx cur l ++ seg_loop (advance (ctx_after cx l) r) b l3.
Proof.
  induction l as [|[r0 b0] l IH]; intros cx cur r b l3 S B.
  - cbn [app seg_loop]. cbn [ctx_after fold_left] in B. rewrite B. reflexivity.
  - destruct S as [S1 S2]. cbn [app seg_loop]. rewrite S1. unfold ctx_after in B |- *. cbn [fold_left fst] in B |- *. fold (ctx_after (advance cx r0) l) in B |- *.
    destruct (boundary cx r0 l); rewrite (IH (advance cx r0) _ r b l3 S2 B); reflexivity.
Qed.

Lemma ctx_after_sane l : forall cx, sane cx -> sane (ctx_after cx l).
Proof.
  induction l as [|[r b] l IH]; intros cx S; [exact S|]. unfold ctx_after. cbn [fold_left fst]. apply (IH (advance cx r)), advance_sane.
Qed.

Lemma segments_join a b : chunks (a ++ b)%string = chunks a ++ chunks b -> chunks a <> [] -> joint (chunks a) (chunks b) ->
  word_segments (a ++ b)%string = word_segments a ++ word_segments b.
Proof.
  intros C N J. unfold word_segments. rewrite C. destruct (chunks a) as [|[r0 b0] l]; [congruence|]. clear N. cbn [app].
  destruct (chunks b) as [|[r b1] l3]; [now rewrite !app_nil_r|]. cbn [joint] in J. unfold ctx_after in J. cbn [fold_left fst] in J. fold (ctx_after (advance start_ctx r0) l) in J.
  change (mkCtx WOther WOther WOther false) with start_ctx.
  rewrite loop_join; [|apply before_boundary; exact J|exact J]. f_equal. apply alike_loop, boundary_restart; [|exact J].
  apply ctx_after_sane, advance_sane.
Qed.

Lemma first_joint s p ps : word_segments s = p :: ps ->
  exists s', s = (p ++ s')%string /\ chunks s = chunks p ++ chunks s' /\ chunks p <> [] /\ joint (chunks p) (chunks s') /\ word_segments s' = ps.
Proof.
  intros E. destruct (later_pieces [p] s ps E) as (s1 & Q & A). cbn [sconcat] in A. rewrite sapp_nil_r in A.
  exists s1. split; [exact A|]. unfold word_segments in E. destruct (chunks s) as [|[r b] L] eqn:C; [discriminate|].
  destruct (first_pieces _ _ _ [p] ps E ltac:(discriminate)) as (l1 & l2 & -> & _ & Ec & R). cbn [sconcat] in Ec. rewrite sapp_nil_r in Ec.
  destruct (chunks_prefix ((r, b) :: l1) s l2 C) as (H & s2 & A2 & C2). change (bytes_of ((r, b) :: l1)) with (b ++ bytes_of l1)%string in H, A2. rewrite <- Ec in H, A2.
  assert (s2 = s1) as -> by (rewrite A2 in A; exact (sapp_inv_head _ _ _ A)).
  rewrite H, C2. split; [reflexivity|]. split; [discriminate|]. split; [|exact Q]. exact R.
Qed.

(** ** What a boundary depends on *)

Definition letter (r : N) : Prop := wbc r = WALetter /\ range_mem ext_pict r = false.

Definition right_like (l l' : chunk_list) : Prop :=
  match l, l' with
  | [], [] => True
  | (r, _) :: m, (r', _) :: m' => (r = r' /\ next_class m = next_class m') \/ (letter r /\ letter r')
  | _, _ => False
  end.

Lemma right_next l l' : right_like l l' -> next_class l = next_class l'.
Proof.
  destruct l as [|[r b] m], l' as [|[r' b'] m']; cbn [right_like next_class]; try contradiction; [reflexivity|].
  intros [[-> E]|[[E _] [E' _]]]; [now rewrite E|]. now rewrite E, E'.
Qed.

Lemma joint_right a b b' : right_like b b' -> joint a b -> joint a b'.
Proof.
  destruct b as [|[r x] m], b' as [|[r' x'] m']; cbn [right_like joint]; try contradiction; [auto|].
  intros [[-> E]|[[E X] [E' X']]] J; [rewrite <- J; apply boundary_ahead; auto|]. rewrite <- J. unfold boundary. rewrite E, E', X, X'. cbn.
  rewrite !andb_false_r. reflexivity.
Qed.

Definition ends_letter (a : chunk_list) : Prop := exists m r x, a = m ++ [(r, x)] /\ letter r.

Lemma ends_letter_ctx a : ends_letter a -> exists c, ctx_after start_ctx a = mkCtx WALetter WALetter c false.
Proof.
  intros (m & r & x & -> & E & _). unfold ctx_after. rewrite fold_left_app. cbn [fold_left fst]. unfold advance. rewrite E. cbn. eauto.
Qed.

Lemma joint_left a a' b : ends_letter a -> ends_letter a' -> joint a b -> joint a' b.
Proof.
  intros A A'. destruct (ends_letter_ctx _ A) as (c & C), (ends_letter_ctx _ A') as (c' & C'). unfold joint. destruct b as [|[r x] m]; [auto|].
  rewrite C, C'. intros <-. unfold boundary. cbn. rewrite !andb_false_r. reflexivity.
Qed.

Lemma loop_some L : forall cx b, seg_loop cx b L <> [].
Proof.
  induction L as [|[r x] L IH]; intros cx b; cbn [seg_loop]; [discriminate|]. destruct (boundary cx r L); [discriminate|apply IH].
Qed.

Lemma no_pieces s : word_segments s = [] -> s = EmptyString.
Proof.
  unfold word_segments. destruct (chunks s) as [|[r b] l] eqn:C; [intros _; now apply chunks_empty|].
  intros E. now apply loop_some in E.
Qed.

(** ** Replacing *)

Definition starts_letter (a : chunk_list) : Prop := exists r x m, a = (r, x) :: m /\ letter r.

(** The texts are the same up to where both have the start of a rune. *)
Definition agree (s s' : string) : Prop := exists c t t', s = (c ++ t)%string /\ s' = (c ++ t')%string /\ fresh_start t /\ fresh_start t'.

Lemma agree_chunks p s s' : agree s s' -> chunks (p ++ s)%string = chunks p ++ chunks s -> chunks (p ++ s')%string = chunks p ++ chunks s'.
Proof.
  intros (c & t & t' & -> & -> & F & F') E. rewrite <- !sapp_assoc in *. rewrite GeneratorProofs.chunks_app in E |- * by assumption.
  rewrite (GeneratorProofs.chunks_app c t F) in E. rewrite (GeneratorProofs.chunks_app c t' F'). rewrite app_assoc in E |- *. apply app_inv_tail in E. now rewrite E.
Qed.

Section Replace.
Variable ex : string -> list string.

(** A piece and what is put in its place. *)
Definition exchange (p : string) : Prop :=
  ex p = [p] \/
  (fresh_start p /\ starts_letter (chunks p) /\ ends_letter (chunks p) /\
   let q := sconcat (ex p) in fresh_start q /\ starts_letter (chunks q) /\ ends_letter (chunks q) /\
     word_segments q = ex p /\ forall b, chunks (q ++ b)%string = chunks q ++ chunks b).

Lemma sconcat_app' a b : sconcat (a ++ b) = (sconcat a ++ sconcat b)%string.
Proof. induction a as [|x a IH]; [reflexivity|]. cbn [app sconcat]. now rewrite IH, sapp_assoc. Qed.

Lemma fresh_app a b : a <> EmptyString -> fresh_start a -> fresh_start (a ++ b)%string.
Proof. destruct a; [congruence|auto]. Qed.

Lemma starts_nonempty a : starts_letter (chunks a) -> a <> EmptyString.
Proof. intros (r & x & m & E & _) ->. discriminate. Qed.

Lemma replaced_segments ps : forall s, word_segments s = ps -> (forall p, In p ps -> exchange p) ->
  let S := sconcat (flat_map ex ps) in
  word_segments S = flat_map ex ps /\ right_like (chunks s) (chunks S) /\ agree s S.
Proof.
  induction ps as [|p ps IH]; intros s E X; cbv zeta.
  - rewrite (no_pieces s E). 
    split; [reflexivity|]. split; [exact I|]. exists EmptyString, EmptyString, EmptyString. repeat split.
  - destruct (first_joint s p ps E) as (s' & A & C & N & J & E'). destruct (IH s' E' (fun q Q => X q (or_intror Q))) as (W & R & G). clear IH.
    cbn [flat_map]. rewrite sconcat_app'. set (S' := sconcat (flat_map ex ps)) in *.
    destruct (X p (or_introl eq_refl)) as [K|(F & St & En & H)].
    + rewrite K. cbn [sconcat]. rewrite sapp_nil_r. rewrite A in C. pose proof (agree_chunks p s' S' G C) as C'.
      assert (Wp : word_segments p = [p]).
      { pose proof (leading_pieces s [p] ps E) as L. cbn [sconcat] in L. now rewrite sapp_nil_r in L. }
      split; [|split].
      * rewrite segments_join; [now rewrite Wp, W|exact C'|exact N|]. exact (joint_right _ _ _ R J).
      * rewrite A, C, C'. destruct (chunks p) as [|[r b] m]; [congruence|]. cbn [app right_like]. left. split; [reflexivity|].
        apply right_next in R. clear -R. induction m as [|[r b] m IH]; [exact R|]. cbn [app next_class]. now rewrite IH.
      * destruct G as (c & t & t' & -> & -> & Ft & Ft'). exists (p ++ c)%string, t, t'. rewrite A, !sapp_assoc. auto.
    + cbv zeta in H. set (q := sconcat (ex p)) in *. destruct H as (Fq & Sq & Eq & Wq & Cq).
      split; [|split].
      * rewrite segments_join; [now rewrite Wq, W|apply Cq| |].
        -- destruct Sq as (r & x & m & -> & _). discriminate.
        -- apply (joint_right _ _ _ R). exact (joint_left _ _ _ En Eq J).
      * rewrite C, Cq. destruct St as (r & x & m & -> & Lr), Sq as (r' & x' & m' & -> & Lr'). cbn [app right_like]. right. auto.
      * exists EmptyString, s, (q ++ S')%string. split; [reflexivity|]. split; [reflexivity|]. rewrite A. split; apply fresh_app; auto using starts_nonempty.
Qed.
End Replace.
