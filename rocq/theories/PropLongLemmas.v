(** * PropLongLemmas: texts with long words (C91). *)

From Verif Require Import Base Utf8 Unicode UnicodeData Token Stream StreamSpec StreamProofs Tokenizer TokenProofs FilterProofs Words WordSplit WordSplitProofs Scanner ScannerSpec ScannerProofs.

(* ------------------------------------------------------------------ *)
(** ** No token is longer than the buffer *)

Section Limit.
Variable split : string -> bool -> option string.
Hypothesis SO : split_ok split.
Variable start_size max_size : nat.
Variable U : unicode.
Variable rd : io_reader.

Definition within (b : buffered rd) : Prop := start b + String.length (pend b) <= blen b /\ blen b <= max_size.

Lemma read_loop_room loops room : forall r x er r', read_loop rd loops room r = (x, er, r') -> String.length x <= room.
Proof.
  induction loops as [|loops IH]; intros r x er r'; cbn [read_loop]; destruct (rread rd r room) as [[y e] r1];
    (destruct (Nat.ltb_spec room (String.length y)); [intros [= <- <- <-]; cbn; lia|]); (destruct e; [intros [= <- <- <-]; assumption|]);
    (destruct (Nat.ltb 0 (String.length y)); [intros [= <- <- <-]; assumption|]); [intros [= <- <- <-]; assumption|].
  apply IH.
Qed.

Lemma ScanB_within n : forall b out b', within b -> ScanB start_size max_size split rd n b = Ret (out, b') ->
  within b' /\ match out with Some p => String.length p <= max_size /\ p <> EmptyString | None => True end.
Proof.
  induction n as [|n IH]; intros b out b' W E; [discriminate|]. cbn [ScanB] in E. cbv zeta in E. destruct W as [W1 W2].
  destruct (if _ || _ then split _ _ else None) as [p|] eqn:F.
  - destruct (_ || _); [|discriminate]. destruct (split_prefix _ SO _ _ _ F) as (Np & d' & Ed). injection E as <- <-. rewrite Ed in *. rewrite sdrop_app. rewrite slen_app in W1.
    split; [split; cbn; lia|]. split; [lia|exact Np].
  - destruct (berr b); [injection E as <- <-; split; [split; cbn; lia|exact I]|].
    set (len := String.length (pend b)) in *.
    set (start1 := if _ && _ then 0 else start b) in *.
    assert (S1 : start1 + len <= blen b) by (unfold start1; destruct (_ && _); lia).
    destruct (Nat.eqb_spec (start1 + len) (blen b)) as [Ef|Ef]; cbn [andb] in E.
    + destruct (Nat.leb_spec max_size (blen b)); [injection E as <- <-; split; [split; cbn [start pend blen]; lia|exact I]|].
      set (blen2 := Nat.min _ _) in *. destruct (read_loop rd max_empty_reads _ _) as [[x er] r'] eqn:R. apply read_loop_room in R.
      apply IH in E; [exact E|]. assert (blen b <= blen2). { unfold blen2. destruct (Nat.eqb_spec (blen b) 0); lia. }
      split; cbn [start pend blen]; [rewrite slen_app; lia|]. unfold blen2. lia.
    + destruct (read_loop rd max_empty_reads _ _) as [[x er] r'] eqn:R. apply read_loop_room in R. apply IH in E; [exact E|].
      split; cbn [start pend blen]; [rewrite slen_app; lia|exact W2].
Qed.

Lemma short_pulls r l s' : Pulls (TokenizeFrom start_size max_size split rd U r) l s' -> forall t, In t l -> String.length (tvalue t) <= max_size.
Proof.
  unfold TokenizeFrom, NewTokenStream.
  assert (G : forall s l s', Pulls s l s' -> forall tok err b, s = closure (btokenizer_next start_size max_size split rd U) tok err b -> within b ->
    forall t, In t l -> String.length (tvalue t) <= max_size).
  { induction 1 as [|s t s1 l0 s2 [n N] P IH]; intros tok err b -> W u I; [destruct I|]. specialize (N n (le_n _)). unfold Next in N. cbn [ts_next closure] in N.
    unfold btokenizer_next in N. destruct (ScanB start_size max_size split rd n b) as [[out b']| |] eqn:E; cbn [bind] in N; try discriminate.
    destruct (ScanB_within _ _ _ _ W E) as [W' H]. destruct out as [p|].
    - injection N as Nt <-. destruct I as [<-|I]; [|exact (IH _ _ b' eq_refl W' u I)]. apply NewToken_value in Nt as [Nt _]. rewrite Nt. apply H.
    - destruct (ErrB rd b'); discriminate. }
  intros P. refine (G _ _ _ P _ _ _ eq_refl _). split; cbn; lia.
Qed.
End Limit.

Lemma Emits_Pulls s l e s' : Emits s l e s' -> exists s1, Pulls s l s1.
Proof.
  induction 1 as [s s' N|s o e s' N|s t s1 l e s2 N E [s3 IH]]; [exists s; constructor|exists s; constructor|]. exists s3. econstructor; eassumption.
Qed.

(** A text with a piece longer than the buffer cannot be read. *)
Lemma C91_long split : split_ok split -> forall start_size max_size, 0 < start_size -> 0 < max_size ->
  forall U rd r d e pieces p, delivers_text rd r d e -> cut_into split d pieces -> In p pieces -> max_size < String.length p ->
  exists ps qs l, pieces = ps ++ qs /\ ~ In p ps /\ Forall2 (fun p t => NewToken U p false = Some t) ps l /\
    Fails (TokenizeFrom start_size max_size split rd U r) l err_too_long.
Proof.
  intros SO ss ms S0 M0 U rd r d e pieces p D C I Lp.
  destruct (C14_any split SO ss ms S0 M0 U rd r d e D) as (ps & qs & l & C2 & F & H).
  pose proof (cut_inj split SO _ _ C _ C2) as ->.
  assert (K : forall x s', Emits (TokenizeFrom ss ms split rd U r) l x s' -> ~ In p ps).
  { intros x s' E Ip. destruct (Emits_Pulls _ _ _ _ E) as [s1 P]. pose proof (short_pulls split SO ss ms U rd r l s1 P) as Sh.
    clear - F Ip Sh Lp. induction F as [|q t ps l N F IH]; [destruct Ip|]. destruct Ip as [->|Ip]; [|apply IH; [exact Ip|intros u Iu; apply Sh; now right]].
    apply NewToken_value in N as [N _]. specialize (Sh t (or_introl eq_refl)). rewrite N in Sh. lia. }
  destruct H as [[-> H]|(Nq & _ & H)].
  - exfalso. rewrite app_nil_r in I. unfold ends_with in H. destruct e; [destruct H as (s' & E & _)|destruct H as (s' & E)]; exact (K _ _ E I).
  - exists ps, qs, l. destruct H as [s' E]. split; [reflexivity|]. split; [exact (K _ _ E)|]. split; [exact F|]. exists s'. exact E.
Qed.

(* ------------------------------------------------------------------ *)
(** ** The word rules look no further than the next word *)

Definition bytes_of (l : list (N * string)) : string := sconcat (map snd l).

Lemma ign_no_boundary cx r rest : is_nl (lastc cx) = false -> is_ign (wbc r) = true -> boundary cx r rest = false.
Proof.
  intros A B. unfold boundary. rewrite A, B. generalize (range_mem ext_pict r). intros m.
  destruct (wbc r); try discriminate; destruct (lastc cx); cbn [is_nl is_ws andb]; try reflexivity; destruct m; reflexivity.
Qed.

Lemma advance_last cx r : lastc (advance cx r) = wbc r.
Proof. unfold advance. destruct (is_ign (wbc r) && negb (is_nl (lastc cx))); reflexivity. Qed.
Lemma ign_not_nl c : is_ign c = true -> is_nl c = false.
Proof. destruct c; cbn; congruence. Qed.
Lemma ahead_not_nl c : looks_ahead c = true -> is_nl c = false.
Proof. destruct c; cbn; congruence. Qed.

Lemma ign_attached l : forall cx cur y, is_nl (lastc cx) = false -> next_known l = None -> exists z w, seg_loop cx cur (l ++ y) = ((cur ++ bytes_of l) ++ z)%string :: w.
Proof.
  induction l as [|[r b] l IH]; intros cx cur y A N.
  - clear N. cbn [app]. replace (cur ++ bytes_of [])%string with cur by (symmetry; apply sapp_nil_r').
    revert cx cur A. induction y as [|[r b] y IHy]; intros cx cur A; [exists EmptyString, []; rewrite sapp_nil_r'; reflexivity|].
    cbn [seg_loop]. destruct (boundary cx r y); [exists EmptyString; eexists; rewrite sapp_nil_r'; reflexivity|].
    assert (G : forall y cx cur, exists z w, seg_loop cx cur y = (cur ++ z)%string :: w).
    { clear. induction y as [|[r b] y IH]; intros cx cur; [exists EmptyString, []; rewrite sapp_nil_r'; reflexivity|]. cbn [seg_loop].
      destruct (boundary cx r y); [exists EmptyString; eexists; rewrite sapp_nil_r'; reflexivity|]. destruct (IH (advance cx r) (cur ++ b)%string) as (z & w & E).
      rewrite E. exists (b ++ z)%string, w. rewrite sapp_assoc. reflexivity. }
    destruct (G y (advance cx r) (cur ++ b)%string) as (z & w & E). rewrite E. exists (b ++ z)%string, w. rewrite sapp_assoc. reflexivity.
  - cbn [next_known] in N. destruct (is_ign (wbc r)) eqn:Ig; [|discriminate]. cbn [app seg_loop]. rewrite ign_no_boundary by assumption.
    assert (A' : is_nl (lastc (advance cx r)) = false).
    { rewrite advance_last. exact (ign_not_nl _ Ig). }
    destruct (IH (advance cx r) (cur ++ b)%string y A' N) as (z & w & E). exists z, w. rewrite E. f_equal. f_equal. unfold bytes_of. cbn. rewrite sapp_assoc. reflexivity.
Qed.

Lemma seg_first cx cur y : exists z w, seg_loop cx cur y = (cur ++ z)%string :: w.
Proof.
  revert cx cur. induction y as [|[r b] y IH]; intros cx cur; [exists EmptyString, []; rewrite sapp_nil_r'; reflexivity|]. cbn [seg_loop].
  destruct (boundary cx r y); [exists EmptyString; eexists; rewrite sapp_nil_r'; reflexivity|]. destruct (IH (advance cx r) (cur ++ b)%string) as (z & w & E).
  rewrite E. exists (b ++ z)%string, w. rewrite sapp_assoc. reflexivity.
Qed.

Lemma first_word_decides l : forall cx cur y p q w, seg_loop cx cur (l ++ y) = p :: q :: w ->
  String.length p + String.length q < String.length (cur ++ bytes_of l)%string -> first_word cx cur l = Some p.
Proof.
  induction l as [|[r b] l IH]; intros cx cur y p q w E Hl.
  - exfalso. destruct (seg_first cx cur y) as (z & w' & E2). cbn [app] in E. rewrite E2 in E. injection E as <- _. unfold bytes_of in Hl. cbn in Hl.
    rewrite sapp_nil_r', slen_app in Hl. lia.
  - cbn [app seg_loop] in E. cbn [first_word].
    assert (Hb : bytes_of ((r, b) :: l) = (b ++ bytes_of l)%string) by reflexivity. rewrite Hb in Hl. clear Hb.
    assert (NL : looks_ahead (wbc r) = true -> is_nl (lastc (advance cx r)) = false).
    { intros H. rewrite advance_last. exact (ahead_not_nl _ H). }
    destruct (looks_ahead (wbc r)) eqn:La.
    + destruct (next_known l) as [c|] eqn:Nk; cbn [andb].
      * assert (B : boundary cx r (l ++ y) = boundary cx r l).
        { apply boundary_ahead. intros _. rewrite (next_known_class l y c Nk). pose proof (next_known_class l [] c Nk) as G. rewrite app_nil_r in G. congruence. }
        rewrite B in E. destruct (boundary cx r l); [injection E as -> _; reflexivity|]. apply (IH _ _ y p q w E). rewrite sapp_assoc. exact Hl.
      * exfalso. destruct (boundary cx r (l ++ y)).
        -- injection E as <- E. destruct (ign_attached l (advance cx r) b y (NL eq_refl) Nk) as (z & w' & E2). rewrite E2 in E. injection E as <- _.
           rewrite !slen_app in Hl. lia.
        -- destruct (ign_attached l (advance cx r) (cur ++ b)%string y (NL eq_refl) Nk) as (z & w' & E2). rewrite E2 in E. injection E as <- _.
           rewrite !slen_app in Hl. lia.
    + cbn [andb]. assert (B : boundary cx r (l ++ y) = boundary cx r l) by (apply boundary_ahead; congruence).
      rewrite B in E. destruct (boundary cx r l); [injection E as -> _; reflexivity|]. apply (IH _ _ y p q w E). rewrite sapp_assoc. exact Hl.
Qed.

Lemma settled_bytes n : forall s, String.length s = n -> n <= String.length (bytes_of (settled n (chunks s))) + 3.
Proof.
  induction n as [n IH] using (well_founded_induction lt_wf). intros s L. destruct (chunks s) as [|[r b] rest] eqn:E.
  - apply chunks_empty in E. subst s. cbn in L. lia.
  - cbn [settled]. destruct (Nat.leb_spec 4 n) as [H|H]; [|cbn; lia].
    destruct (chunks_cons _ _ _ _ E) as (s' & -> & Es & Nb & _).
    assert (Ls : String.length s' = n - String.length b) by (rewrite <- L, Es, slen_app; lia).
    assert (Lb : 0 < String.length b) by (destruct b; [congruence|cbn; lia]).
    pose proof (IH (n - String.length b) ltac:(lia) s' Ls) as G. unfold bytes_of in *. cbn. rewrite slen_app. lia.
Qed.

Lemma word_split_decides x y p q w : word_segments (x ++ y)%string = p :: q :: w -> String.length p + String.length q + 3 < String.length x ->
  word_split x false = Some p.
Proof.
  intros E H. unfold word_split. destruct (settled_stable _ x eq_refl y) as [z Ez]. pose proof (settled_bytes _ x eq_refl) as Sb.
  unfold word_segments in E. rewrite Ez in E. destruct (settled (String.length x) (chunks x)) as [|[r b] rest]; [cbn in Sb; lia|].
  cbn [app] in E. apply (first_word_decides rest _ b z p q w E). change (b ++ bytes_of rest)%string with (bytes_of ((r, b) :: rest)). lia.
Qed.

Lemma cut_suffix split ps : forall d qs, cut_into split d (ps ++ qs) -> cut_into split (sconcat qs) qs.
Proof.
  induction ps as [|p ps IH]; intros d qs C; cbn [app] in C.
  - rewrite (cut_concat split _ _ C). exact C.
  - inversion C as [|p' d' l S C' E1 E2]; subst. exact (IH _ _ C').
Qed.

(** Neighbouring words that together are shorter than the buffer by four bytes: the text fits. *)
Lemma words_fit max_size d : 0 < max_size ->
  (forall ps p qs, word_segments d = ps ++ p :: qs -> String.length p < max_size /\ forall q qs', qs = q :: qs' -> String.length p + String.length q + 3 < max_size) ->
  fits max_size word_split d.
Proof.
  intros M0 H ps qs x y C E L. pose proof (cut_inj word_split word_split_ok _ _ C _ (word_split_cuts d)) as W.
  destruct qs as [|p qs].
  - cbn in E. destruct x; [cbn in L; lia|discriminate].
  - symmetry in W. destruct (H ps p qs W) as [H1 H2]. pose proof (cut_suffix _ _ _ _ C) as C2.
    pose proof (cut_inj word_split word_split_ok _ _ C2 _ (word_split_cuts _)) as W2. destruct qs as [|q qs].
    + exfalso. apply (f_equal String.length) in E. cbn in E. rewrite sapp_nil_r', slen_app in E. lia.
    + symmetry in W2. rewrite E in W2. rewrite (word_split_decides x y p q qs W2); [discriminate|]. specialize (H2 q qs eq_refl). lia.
Qed.

Lemma C91_words start_size max_size : 0 < start_size -> 0 < max_size -> forall U rd r d e,
  delivers_text rd r d e ->
  (forall ps p qs, word_segments d = ps ++ p :: qs -> String.length p < max_size /\ forall q qs', qs = q :: qs' -> String.length p + String.length q + 3 < max_size) ->
  exists l, Forall2 (fun p t => NewToken U p false = Some t) (word_segments d) l /\ ends_with (TokenizeFrom start_size max_size word_split rd U r) l e.
Proof.
  intros S0 M0 U rd r d e D H. destruct (C14_lemma word_split word_split_ok start_size max_size S0 M0 U rd r d e D (words_fit max_size d M0 H)) as (ps & l & C & F & E).
  rewrite <- (cut_inj word_split word_split_ok _ _ C _ (word_split_cuts d)). exists l. auto.
Qed.

(** ** A long word *)

Fixpoint aaa (n : nat) : string := match n with O => EmptyString | S n => String "a" (aaa n) end.
Lemma aaa_length n : String.length (aaa n) = n.
Proof. induction n; cbn; congruence. Qed.
Lemma wbc_a : wbc 97 = WALetter.
Proof. vm_compute. reflexivity. Qed.
Lemma chunks_aaa n : chunks (aaa n) = repeat (97%N, "a"%string) n.
Proof. induction n as [|n IH]; [reflexivity|]. cbn [aaa chunks repeat]. rewrite <- IH. reflexivity. Qed.
Lemma aaa_app n m : (aaa n ++ aaa m)%string = aaa (n + m).
Proof. induction n; cbn; congruence. Qed.

Lemma seg_aaa n : forall cx m, lastc cx = WALetter -> p1 cx = WALetter -> seg_loop cx (aaa m) (repeat (97%N, "a"%string) n) = [aaa (m + n)].
Proof.
  induction n as [|n IH]; intros cx m H1 H2; cbn [repeat seg_loop]; [now rewrite Nat.add_0_r|].
  assert (B : boundary cx 97 (repeat (97%N, "a"%string) n) = false).
  { unfold boundary. rewrite H1, H2, wbc_a. reflexivity. }
  rewrite B. change "a"%string with (aaa 1) at 1. rewrite aaa_app, IH.
  - f_equal. f_equal. lia.
  - unfold advance. rewrite wbc_a. reflexivity.
  - unfold advance. rewrite wbc_a. reflexivity.
Qed.
Lemma segments_aaa n : word_segments (aaa (S n)) = [aaa (S n)].
Proof.
  unfold word_segments. rewrite chunks_aaa. cbn [repeat]. change "a"%string with (aaa 1) at 1. rewrite seg_aaa; [reflexivity| |]; unfold advance; rewrite wbc_a; reflexivity.
Qed.

Lemma C91_refutation start_size max_size : 0 < start_size -> 0 < max_size -> forall U rd r e,
  delivers_text rd r (aaa (S max_size)) e -> Fails (TokenizeFrom start_size max_size word_split rd U r) [] err_too_long.
Proof.
  intros S0 M0 U rd r e D. pose proof (word_split_cuts (aaa (S max_size))) as C. rewrite segments_aaa in C.
  destruct (C91_long word_split word_split_ok start_size max_size S0 M0 U rd r _ e _ (aaa (S max_size)) D C) as (ps & qs & l & E & N & F & H).
  - now left.
  - rewrite aaa_length. lia.
  - destruct ps as [|p ps]; [inversion F; subst; exact H|]. injection E as <- E. exfalso. apply N. now left.
Qed.

Lemma C91_refutation2 start_size max_size : 0 < start_size -> 0 < max_size ->
  exists d, word_segments d = [d] /\ String.length d = S max_size /\ forall U rd r e, delivers_text rd r d e ->
    Fails (TokenizeFrom start_size max_size word_split rd U r) [] err_too_long.
Proof.
  intros S0 M0. exists (aaa (S max_size)). split; [apply segments_aaa|]. split; [apply aaa_length|]. intros U rd r e. exact (C91_refutation start_size max_size S0 M0 U rd r e).
Qed.
