(** * Lemmas behind C105 *)

From Verif Require Import Base Utf8 Unicode UnicodeData Token Stream StreamSpec Tokenizer Words Filters Ascii Synonyms ContractionsTable FilterSpec SynSpec ChainSpec LineSpec EndSpec
  StreamProofs FilterProofs ChainProofs WordsProofs WordLineProofs PropSigilLemmas PropSynLemmas2 PropLineLemmas.

Lemma unix_cons a b r : unix_ends (String a (String b r)) =
  if Ascii.eqb a (ascii_of_nat 13) && Ascii.eqb b (ascii_of_nat 10) then String b (unix_ends r) else String a (unix_ends (String b r)).
Proof. reflexivity. Qed.

(** Cut at every CR LF. *)
Lemma cut_lines v : exists lines last, v = (joined_lines (map (fun a => (a, CR ++ LF)%string) lines) ++ last)%string /\
  unix_ends v = (joined_lines (map (fun a => (a, LF)) lines) ++ last)%string.
Proof.
  remember (String.length v) as n eqn:En. assert (L : String.length v <= n) by lia. clear En. revert v L. induction n as [|n IH]; intros v L.
  - destruct v; [|cbn in L; lia]. exists [], EmptyString. split; reflexivity.
  - destruct v as [|a [|b r]]; [exists [], EmptyString; split; reflexivity|exists [], (String a EmptyString); split; reflexivity|].
    rewrite unix_cons. cbn in L. destruct (Ascii.eqb a (ascii_of_nat 13) && Ascii.eqb b (ascii_of_nat 10)) eqn:E.
    + apply andb_true_iff in E as [Ea Eb]. apply Ascii.eqb_eq in Ea, Eb. subst a b.
      destruct (IH r ltac:(lia)) as (lines & last & E1 & E2). exists (EmptyString :: lines), last. cbn [map]. unfold joined_lines in *. cbn [map sconcat fst snd].
      rewrite E2, E1. split; reflexivity.
    + destruct (IH (String b r) ltac:(cbn; lia)) as (lines & last & E1 & E2). destruct lines as [|l lines].
      * exists [], (String a last). unfold joined_lines in *. cbn [map sconcat append] in *.
        rewrite <- E1. split; [reflexivity|]. f_equal. rewrite E2. now rewrite E1.
      * exists (String a l :: lines), last. unfold joined_lines in *. cbn [map sconcat fst snd append] in *. rewrite <- E1.
        split; [reflexivity|]. now rewrite E2.
Qed.

Lemma lines_unstray lines last : no_stray_return (joined_lines (map (fun a => (a, CR ++ LF)%string) lines) ++ last) ->
  forall a, In a lines -> forall a', a <> (a' ++ CR)%string.
Proof.
  intros N a I a' E. apply in_split in I as (l1 & l2 & ->). unfold joined_lines in N. rewrite map_map, map_app, sconcat_app in N. cbn [map sconcat fst snd] in N.
  subst a. refine (N (sconcat (map (fun x : string => (x ++ CR ++ LF)%string) l1) ++ a')%string
    (sconcat (map (fun x : string => (x ++ CR ++ LF)%string) l2) ++ last)%string _). cbn [fst snd]. now rewrite !sapp_assoc.
Qed.

Lemma apply_app fs gs s : ApplyFilters (fs ++ gs) s = ApplyFilters gs (ApplyFilters fs s).
Proof. revert s. induction fs as [|F fs IH]; intros s; [reflexivity|]. cbn. apply IH. Qed.

Lemma outputs_alike lines : forall outs, length outs = length lines ->
  Forall2 same_but_end (joined_outputs (fun e => [line_token e]) (map (fun a : string => (a, CR ++ LF)%string) lines) outs)
    (joined_outputs (fun e => [line_token e]) (map (fun a => (a, LF)) lines) outs).
Proof.
  assert (R : forall l, Forall2 same_but_end l l) by (intros l; induction l; constructor; [now left|assumption]).
  induction lines as [|a lines IH]; intros [|o outs] L; try discriminate; [constructor|]. unfold joined_outputs in *. cbn [map combine concat fst snd].
  apply Forall2_app; [|apply IH; cbn in L; lia]. apply Forall2_app; [apply R|]. constructor; [right; split; reflexivity|constructor].
Qed.

Lemma select_alike (pred : token -> bool) l l' : pred (line_token (CR ++ LF)) = pred (line_token LF) -> Forall2 same_but_end l l' ->
  Forall2 same_but_end (filter pred l) (filter pred l').
Proof.
  intros P F. induction F as [|t t' l l' [->|[-> ->]] F IH]; cbn [filter]; [constructor| |].
  - destruct (pred t); [constructor; [now left|exact IH]|exact IH].
  - rewrite P. destruct (pred (line_token LF)); [constructor; [right; split; reflexivity|exact IH]|exact IH].
Qed.

Lemma selected_alike gs : Forall (fun G => G = Stream.Words \/ G = Lemmas) gs -> forall s s' l l', Yields s l -> Yields s' l' -> Forall2 same_but_end l l' ->
  exists o o', Yields (ApplyFilters gs s) o /\ Yields (ApplyFilters gs s') o' /\ Forall2 same_but_end o o'.
Proof.
  induction 1 as [|G gs E Gs IH]; intros s s' l l' Y Y' F; [exists l, l'; auto|]. cbn [ApplyFilters fold_left].
  assert (X : exists pred, G = Where pred /\ pred (line_token (CR ++ LF)) = pred (line_token LF)) by (destruct E as [-> | ->]; eexists; split; reflexivity).
  destruct X as (pred & -> & P). apply (IH (Where pred s) (Where pred s') (filter pred l) (filter pred l')).
  - now apply where_transforms.
  - now apply where_transforms.
  - now apply select_alike.
Qed.

Lemma C105_lemma fs gs v : Forall (line_filter go_unicode words_scan) fs -> Forall (fun G => G = Stream.Words \/ G = Lemmas) gs -> no_stray_return v ->
  exists o o', processed go_unicode words_scan (fs ++ gs) v o /\ processed go_unicode words_scan (fs ++ gs) (unix_ends v) o' /\ Forall2 same_but_end o o'.
Proof.
  intros Ff Gg NS. destruct (cut_lines v) as (lines & last & E1 & E2). rewrite E2. rewrite E1 in NS |- *. clear E1 E2 v.
  pose proof (lines_unstray lines last NS) as U.
  destruct (C70_lemma go_unicode word_segments go_sane go_comma word_segments_ok word_segments_break fs [] Ff (Forall_nil _)) as (kept & _ & K & H).
  specialize (K eq_refl). rewrite app_nil_r in H.
  destruct (H (map (fun a => (a, CR ++ LF)%string) lines) last) as (outs & o & F1 & Yl & Y1).
  { intros a e I. apply in_map_iff in I as (x & I & _). injection I as <- <-. now left. }
  destruct (H (map (fun a => (a, LF)) lines) last) as (outs' & o' & F2 & Yl' & Y2).
  { intros a e I. apply in_map_iff in I as (x & I & Ix). injection I as <- <-. right. split; [reflexivity|now apply U]. }
  rewrite <- (Yields_inj _ _ _ Yl Yl') in Y2.
  assert (Eo : outs' = outs).
  { clear - F1 F2. revert outs outs' F1 F2. induction lines as [|a lines IH]; intros outs outs' F1 F2; inversion F1; inversion F2; subst; [reflexivity|].
    f_equal; [|eapply IH; eassumption]. eapply Yields_inj; eassumption. }
  subst outs'.
  assert (J : forall ls, joined_outputs kept ls outs = joined_outputs (fun e => [line_token e]) ls outs).
  { intros ls. unfold joined_outputs. f_equal. apply map_ext. intros x. now rewrite K. }
  rewrite J in Y1, Y2.
  destruct (selected_alike gs Gg _ _ _ _ Y1 Y2) as (p & p' & P1 & P2 & P3).
  - apply Forall2_app; [apply outputs_alike|].
    + clear - F1. revert outs F1. induction lines as [|a lines IH]; intros outs F1; inversion F1; subst; [reflexivity|]. cbn. f_equal. now apply IH.
    + clear. induction o; constructor; [now left|assumption].
  - exists p, p'. unfold processed. rewrite !apply_app. auto.
Qed.

Lemma C105_stray o o' : processed go_unicode words_scan [] (CR ++ CR ++ LF) o -> processed go_unicode words_scan [] (unix_ends (CR ++ CR ++ LF)) o' ->
  length o = 2 /\ length o' = 1.
Proof.
  intros Y Y'. pose proof (TokenizeString_yields go_unicode words_scan words_scan_ok (CR ++ CR ++ LF) eq_refl) as Z.
  pose proof (TokenizeString_yields go_unicode words_scan words_scan_ok (unix_ends (CR ++ CR ++ LF)) eq_refl) as Z'.
  rewrite (Yields_inj _ _ _ Y Z), (Yields_inj _ _ _ Y' Z'), !map_length. vm_compute. split; reflexivity.
Qed.

Lemma C105_hypotheses : no_stray_return ("ruby" ++ CR ++ LF ++ "x" ++ LF ++ CR ++ "y")%string /\
  unix_ends ("ruby" ++ CR ++ LF ++ "x" ++ LF ++ CR ++ "y") = ("ruby" ++ LF ++ "x" ++ LF ++ CR ++ "y")%string /\
  exists b, Forall (line_filter go_unicode words_scan)
    [Contractions go_unicode words_scan contraction_mappings; Fold go_unicode; SynFilter go_unicode None b; Handles go_unicode; Hashtags go_unicode].
Proof.
  split; [|split; [vm_compute; reflexivity|]].
  - intros a b E. unfold CR, LF in E. cbn in E.
    do 10 (destruct a as [|? a]; cbn in E; [congruence|injection E as _ E; try discriminate E]).
    all: try (destruct a; discriminate E).
  - destruct C70_hypotheses_lemma as (_ & _ & _ & b & F & _). now exists b.
Qed.
