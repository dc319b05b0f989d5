(** * WordStable: a run of pieces of a text is cut into the same pieces on its own, for C76. *)

From Verif Require Import Base Utf8 Unicode UnicodeData Token Stream StreamSpec Tokenizer Words WordSplit Scanner ScannerSpec
  StreamProofs Utf8Proofs WordsProofs ScannerProofs WordSplitProofs.

Local Opaque wbc.
Local Arguments wbc : simpl never.

(** ** Runes *)

Definition bytes_of (l : list (N * string)) : string := sconcat (map snd l).

(** Fewer bytes after it do not change the first rune. *)
Lemma chunk_shorter r b t u l : b <> EmptyString -> chunks (b ++ t ++ u)%string = (r, b) :: l -> chunks (b ++ t)%string = (r, b) :: chunks t.
Proof.
  intros N E. destruct b as [|c1 b]; [congruence|]. clear N. cbn [String.append chunks] in E |- *.
  destruct (byte_of c1 <? 128)%N. { injection E as <- E _. subst b. reflexivity. }
  destruct (in_range 194 223 (byte_of c1)).
  { destruct b as [|c2 b]; cbn [String.append] in E |- *.
    - destruct t as [|d2 t]; cbn [String.append] in E |- *; [destruct u as [|d2 u]|]; try (injection E as <- _; reflexivity);
        destruct (cont (byte_of d2)); try discriminate; injection E as <- _; reflexivity.
    - destruct (cont (byte_of c2)); [|discriminate]. injection E as <- E _. subst b. reflexivity. }
  destruct (in_range 224 239 (byte_of c1)).
  { destruct b as [|c2 [|c3 b]]; cbn [String.append] in E |- *.
    - assert (R : r = RuneError).
      { destruct (t ++ u)%string as [|d2 [|d3 x]]; try (injection E as <- _; reflexivity). destruct (in_range _ _ _ && _)%bool; [discriminate|]. injection E as <- _. reflexivity. }
      subst r. destruct t as [|d2 [|d3 t]]; try reflexivity. cbn [String.append] in E. destruct (in_range _ _ _ && _)%bool; [discriminate|]. reflexivity.
    - exfalso. destruct (t ++ u)%string as [|d2 x]; [discriminate|]. destruct (in_range _ _ _ && _)%bool; discriminate.
    - destruct (in_range _ _ _ && _)%bool; [|discriminate]. injection E as <- E _. subst b. reflexivity. }
  destruct (in_range 240 244 (byte_of c1)).
  { destruct b as [|c2 [|c3 [|c4 b]]]; cbn [String.append] in E |- *.
    - assert (R : r = RuneError).
      { destruct (t ++ u)%string as [|d2 [|d3 [|d4 x]]]; try (injection E as <- _; reflexivity). destruct (in_range _ _ _ && _ && _)%bool; [discriminate|]. injection E as <- _. reflexivity. }
      subst r. destruct t as [|d2 [|d3 [|d4 t]]]; try reflexivity. cbn [String.append] in E. destruct (in_range _ _ _ && _ && _)%bool; [discriminate|]. reflexivity.
    - exfalso. destruct (t ++ u)%string as [|d2 [|d3 x]]; try discriminate. destruct (in_range _ _ _ && _ && _)%bool; discriminate.
    - exfalso. destruct (t ++ u)%string as [|d2 x]; try discriminate. destruct (in_range _ _ _ && _ && _)%bool; discriminate.
    - destruct (in_range _ _ _ && _ && _)%bool; [|discriminate]. injection E as <- E _. subst b. reflexivity. }
  injection E as <- E _. subst b. reflexivity.
Qed.

Lemma chunks_prefix l1 : forall s l2, chunks s = l1 ++ l2 -> chunks (bytes_of l1) = l1 /\ exists s2, s = (bytes_of l1 ++ s2)%string /\ chunks s2 = l2.
Proof.
  induction l1 as [|[r b] l1 IH]; intros s l2 E; [split; [reflexivity|exists s; auto]|]. cbn [app] in E.
  destruct (chunks_cons _ _ _ _ E) as (s' & El & Es & Nb & _). destruct (IH s' l2 (eq_sym El)) as (H & s2 & E2 & C2). unfold bytes_of in *. cbn [map snd sconcat]. split.
  - rewrite (chunk_shorter r b _ s2 (l1 ++ l2) Nb); [now rewrite H|]. rewrite <- E2, <- Es. exact E.
  - exists s2. split; [|exact C2]. rewrite Es, E2. now rewrite sapp_assoc.
Qed.

(** ** The rules *)

Definition ctx_after (cx : ctx) (l : list (N * string)) : ctx := fold_left (fun c rb => advance c (fst rb)) l cx.

Lemma ign_ctx l : forall cx, is_nl (lastc cx) = false -> (forall r b, In (r, b) l -> is_ign (wbc r) = true) ->
  is_nl (lastc (ctx_after cx l)) = false /\ p1 (ctx_after cx l) = p1 cx /\ p2 (ctx_after cx l) = p2 cx.
Proof.
  induction l as [|[r b] l IH]; intros cx N H; [auto|]. unfold ctx_after. cbn [fold_left fst]. fold (ctx_after (advance cx r) l).
  assert (I : is_ign (wbc r) = true) by (eapply H; left; reflexivity).
  assert (A : advance cx r = mkCtx (wbc r) (p1 cx) (p2 cx) (odd_ri cx)) by (unfold advance; now rewrite I, N).
  rewrite A. apply (IH (mkCtx (wbc r) (p1 cx) (p2 cx) (odd_ri cx))); [cbn; destruct (wbc r); cbn in *; congruence|]. intros r' b' J. eapply H. right. exact J.
Qed.

Lemma next_or_ign l rest : next_class (l ++ rest) = next_class l \/
  ((forall r b, In (r, b) l -> is_ign (wbc r) = true) /\ next_class (l ++ rest) = next_class rest).
Proof.
  induction l as [|[r b] l IH]; [right; split; [intros ? ? []|reflexivity]|]. cbn [next_class app]. destruct (is_ign (wbc r)) eqn:I; [|auto].
  destruct IH as [IH|[H IH]]; [auto|]. right. split; [|exact IH]. intros r' b' [X|X]; [injection X as <- <-; exact I|eauto].
Qed.

Lemma no_boundary cx r l : is_nl (lastc cx) = false -> is_nl (wbc r) = false -> boundary cx r l = true ->
  is_ign (wbc r) = false /\
  is_ahl (p2 cx) && is_mid (p1 cx) && is_ahl (wbc r) = false /\
  is_heb (p2 cx) && is_dq (p1 cx) && is_heb (wbc r) = false /\
  is_num (p2 cx) && is_midn (p1 cx) && is_num (wbc r) = false.
Proof.
  intros N1 N2 B. unfold boundary in B. rewrite N1, N2 in B.
  repeat match type of B with (if ?c then false else _) = true => destruct c eqn:?; [discriminate|] end. auto.
Qed.

Lemma boundary_alone cx r l : boundary cx r l = true -> forall l', boundary cx r l' = false ->
  (is_ahl (p1 cx) && is_mid (wbc r) && is_ahl (next_class l') = true) \/
  (is_heb (p1 cx) && is_dq (wbc r) && is_heb (next_class l') = true) \/
  (is_num (p1 cx) && is_midn (wbc r) && is_num (next_class l') = true).
Proof.
  intros B l' B'. unfold boundary in B, B'.
  destruct (match lastc cx with WCR => _ | _ => _ end); [discriminate|]. destruct (is_nl (lastc cx)); [discriminate|]. destruct (is_nl (wbc r)); [discriminate|].
  repeat match type of B' with (if ?c then false else _) = false => destruct c eqn:?; [try discriminate B; auto|try discriminate B] end; try discriminate.
  all: repeat match type of B with (if ?c then false else _) = true => destruct c eqn:?; [discriminate|] end; auto.
Qed.

Lemma boundary_more cx r l l' : next_class l = WOther -> boundary cx r l = false -> boundary cx r l' = false.
Proof.
  intros N B. destruct (boundary cx r l') eqn:B'; [|reflexivity]. exfalso.
  destruct (boundary_alone _ _ _ B' _ B) as [D|[D|D]]; rewrite N in D; apply andb_prop in D as [_ D]; discriminate.
Qed.

(** The decisions in [l] do not depend on what follows. *)
Fixpoint settled_before (cx : ctx) (l rest : list (N * string)) : Prop :=
  match l with
  | [] => True
  | (r, b) :: l' => boundary cx r (l' ++ rest) = boundary cx r l' /\ settled_before (advance cx r) l' rest
  end.

(** What comes after a boundary is not needed for what is before it. *)
Lemma before_boundary l r b l3 : forall cx, boundary (ctx_after cx l) r l3 = true -> settled_before cx l ((r, b) :: l3).
Proof.
  induction l as [|[r0 b0] l IH]; intros cx B; [exact I|]. split; [|apply IH; exact B].
  destruct (next_or_ign l ((r, b) :: l3)) as [E|[Ig E]]; [apply boundary_ahead; intros _; exact E|].
  assert (W : next_class l = WOther).
  { clear -Ig. induction l as [|[x y] l IH]; [reflexivity|]. cbn [next_class]. rewrite (Ig x y (or_introl eq_refl)). apply IH. intros x' y' J. eapply Ig. right. exact J. }
  destruct (boundary cx r0 l) eqn:T; [|exact (boundary_more _ _ _ _ W T)]. destruct (boundary cx r0 (l ++ (r, b) :: l3)) eqn:B0; [reflexivity|]. exfalso.
  pose proof (boundary_alone _ _ _ T _ B0) as D. rewrite E in D. clear E T B0.
  unfold ctx_after in B. cbn [fold_left fst] in B. fold (ctx_after (advance cx r0) l) in B.
  assert (A : is_ign (wbc r0) = false /\ is_nl (wbc r0) = false).
  { destruct D as [D|[D|D]]; apply andb_prop in D as [D _]; apply andb_prop in D as [_ D]; destruct (wbc r0); cbn in *; auto; discriminate. }
  destruct A as [A1 A2].
  assert (C : advance cx r0 = mkCtx (wbc r0) (wbc r0) (p1 cx) (if is_ri (wbc r0) then (if is_ri (p1 cx) then negb (odd_ri cx) else true) else false)) by (unfold advance; now rewrite A1).
  destruct (ign_ctx l (advance cx r0)) as (N1 & P1 & P2); [rewrite C; exact A2|exact Ig|].
  assert (P1' : p1 (ctx_after (advance cx r0) l) = wbc r0) by (rewrite P1, C; reflexivity). assert (P2' : p2 (ctx_after (advance cx r0) l) = p1 cx) by (rewrite P2, C; reflexivity).
  cbn [next_class] in D. destruct (is_nl (wbc r)) eqn:N2.
  { destruct (is_ign (wbc r)) eqn:X; [destruct (wbc r); discriminate|]. destruct D as [D|[D|D]]; apply andb_prop in D as [_ D]; destruct (wbc r); discriminate. }
  destruct (no_boundary _ _ _ N1 N2 B) as (X & Y1 & Y2 & Y3). rewrite X in D. rewrite P1', P2' in Y1, Y2, Y3. destruct D as [D|[D|D]]; congruence.
Qed.

(** The pieces up to one of them are those of the runes up to a boundary. *)
Lemma first_pieces L : forall cx cur ps qs, seg_loop cx cur L = ps ++ qs -> ps <> [] -> exists l1 l2, L = l1 ++ l2 /\
  (settled_before cx l1 l2 -> seg_loop cx cur l1 = ps) /\ sconcat ps = (cur ++ bytes_of l1)%string /\
  match l2 with [] => True | (r, b) :: l3 => boundary (ctx_after cx l1) r l3 = true end.
Proof.
  unfold bytes_of. induction L as [|[r b] L IH]; intros cx cur ps qs E N; cbn [seg_loop] in E.
  - destruct ps as [|p ps]; [congruence|]. cbn in E. injection E as <- E. destruct ps; [|discriminate]. exists [], []. cbn. auto.
  - destruct (boundary cx r L) eqn:B.
    + destruct ps as [|p ps]; [congruence|]. cbn in E. injection E as <- E. destruct ps as [|p' ps]; [exists [], ((r, b) :: L); cbn; auto|].
      destruct (IH _ _ (p' :: ps) qs E ltac:(discriminate)) as (l1 & l2 & -> & E1 & C & R). exists ((r, b) :: l1), l2. split; [reflexivity|]. split; [|split; [|exact R]].
      * intros [S1 S2]. cbn [seg_loop]. rewrite <- S1, B, E1 by exact S2. reflexivity.
      * cbn [map snd sconcat] in *. rewrite C. reflexivity.
    + destruct (IH _ _ ps qs E N) as (l1 & l2 & -> & E1 & C & R). exists ((r, b) :: l1), l2. split; [reflexivity|]. split; [|split; [|exact R]].
      * intros [S1 S2]. cbn [seg_loop]. rewrite <- S1, B. exact (E1 S2).
      * cbn [map snd sconcat] in *. rewrite C. now rewrite sapp_assoc.
Qed.

(** ** Pieces *)

Lemma leading_pieces s ps qs : word_segments s = ps ++ qs -> word_segments (sconcat ps) = ps.
Proof.
  intros E. destruct ps as [|p ps]; [reflexivity|]. unfold word_segments in E. destruct (chunks s) as [|[r b] L] eqn:C; [discriminate|].
  destruct (first_pieces _ _ _ (p :: ps) qs E ltac:(discriminate)) as (l1 & l2 & -> & E1 & Ec & R).
  destruct (chunks_prefix ((r, b) :: l1) s l2 C) as [H _]. change (bytes_of ((r, b) :: l1)) with (b ++ bytes_of l1)%string in H. rewrite <- Ec in H.
  unfold word_segments. rewrite H. apply E1. destruct l2 as [|[r2 b2] l3]; [|apply before_boundary; exact R].
  clear. generalize (advance (mkCtx WOther WOther WOther false) r). clear r. induction l1 as [|[r b'] l1 IH]; intros cx; [exact I|]. split; [now rewrite app_nil_r|apply IH].
Qed.

Lemma later_pieces ps : forall s qs, word_segments s = ps ++ qs -> exists s', word_segments s' = qs /\ s = (sconcat ps ++ s')%string.
Proof.
  induction ps as [|p ps IH]; intros s qs E; [exists s; auto|]. destruct (word_segments_first s) as (p' & s2 & E2 & A); [intros ->; discriminate|].
  rewrite E in E2. injection E2 as <- E2. destruct (IH s2 qs (eq_sym E2)) as (s' & Q & A'). exists s'. split; [exact Q|]. rewrite A, A'. cbn [sconcat]. now rewrite sapp_assoc.
Qed.

Lemma pieces_alone s ps qs rs : word_segments s = ps ++ qs ++ rs -> word_segments (sconcat qs) = qs.
Proof. intros E. destruct (later_pieces ps s _ E) as (s' & Q & _). exact (leading_pieces s' qs rs Q). Qed.
