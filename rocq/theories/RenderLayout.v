(** * RenderLayout: what the three replacements of the generators do to their source, for C66. *)

From Verif Require Import Base Utf8 Unicode Words Ascii ContractionsGen Generators GenSpec Render RenderSpec StreamProofs Utf8Proofs WordsProofs WordSplitProofs TokenProofs GeneratorProofs RenderProofs PropRenderLemmas.
Local Open Scope N_scope.

Notation Q := (chr 34).
Notation q := (String Q EmptyString).

(** ** Bodies of literals *)

(** No double quote but after a backslash. *)
Inductive units : string -> Prop :=
| U_end : units ""
| U_char c s : c <> Q -> c <> backslash -> units s -> units (String c s)
| U_esc c s : units s -> units (String backslash (String c s)).

Lemma units_app a b : units a -> units b -> units (a ++ b).
Proof. induction 1; intros B; cbn [append]; [exact B|apply U_char; auto|apply U_esc; auto]. Qed.
Lemma units_plain a : (forall c, In c (la a) -> c <> Q /\ c <> backslash) -> units a.
Proof. induction a as [|c a IH]; intros H; [constructor|]. destruct (H c (or_introl eq_refl)). apply U_char; auto. apply IH. intros d I. apply H. now right. Qed.
Lemma units_not_quote t : ~ units (String Q t).
Proof. intros U. inversion U as [|? ? N|]. now apply N. Qed.

(** The text after the first double quote that is not behind a backslash. *)
Fixpoint after (s : string) : option string :=
  match s with
  | EmptyString => None
  | String c r =>
    if Ascii.eqb c Q then Some r
    else if Ascii.eqb c backslash then match r with EmptyString => None | String _ r' => after r' end
    else after r
  end.
Lemma units_after b t : units b -> after (b ++ String Q t) = Some t.
Proof.
  induction 1 as [|c s H1 H2 U IH|c s U IH]; cbn [append after].
  - reflexivity.
  - destruct (Ascii.eqb_spec c Q); [congruence|]. destruct (Ascii.eqb_spec c backslash); [congruence|exact IH].
  - exact IH.
Qed.
Lemma units_unique a b t u : units a -> units b -> (a ++ String Q t)%string = (b ++ String Q u)%string -> a = b /\ t = u.
Proof.
  intros A B E. pose proof (units_after a t A) as X. rewrite E, (units_after b u B) in X. injection X as ->. split; [|reflexivity].
  exact (app_suffix _ _ _ E).
Qed.

Lemma units_literal s v : literal s v -> units s.
Proof.
  assert (Dg : forall base acc s n, digits base acc s n -> forall c, In c (la s) -> c <> Q /\ c <> backslash).
  { induction 1 as [|acc c d s' n V B D IH]; intros x I; [destruct I|]. destruct I as [->|I]; [|exact (IH x I)]. split; intros ->; discriminate V. }
  induction 1 as [|r src v V N L IH|c n src v I L IH|ds n src v Ln D L IH|ds n src v Ln D B L IH|ds r src v Ln D V L IH|ds r src v Ln D V L IH].
  - constructor.
  - apply units_app; [|exact IH]. apply units_plain. intros c J. rewrite encode_rune_valid in J by exact V.
    destruct (N.lt_ge_cases r 128) as [S|S].
    + unfold enc_raw in J. rewrite (proj2 (N.ltb_lt _ _) S) in J. destruct J as [J|[]].
      split; intros ->; apply (f_equal byte_of) in J; rewrite byte_chr in J by lia; cbn in J; subst r; apply N; cbn; auto.
    + pose proof (enc_high r V S _ J) as X. split; intros ->; cbn in X; lia.
  - apply U_esc. exact IH.
  - apply U_esc. apply units_app; [|exact IH]. apply units_plain. exact (Dg _ _ _ _ D).
  - destruct (octal_head _ _ _ _ D Ln) as (c & ds' & d & -> & _ & _). cbn [append]. apply U_esc. apply units_app; [|exact IH]. apply units_plain.
    intros x I. apply (Dg _ _ _ _ D). now right.
  - apply U_esc. apply units_app; [|exact IH]. apply units_plain. exact (Dg _ _ _ _ D).
  - apply U_esc. apply units_app; [|exact IH]. apply units_plain. exact (Dg _ _ _ _ D).
Qed.

(** ** The replacements within a body *)

Lemma prefix_fst a b x y : String.prefix (String a x) (String b y) = if ascii_dec a b then String.prefix x y else false.
Proof. reflexivity. Qed.

Section Passes.
Variable ind : string.
Hypothesis IND : only [9] ind.
Notation nl := (newline ++ ind)%string.

Notation oldA := (String Q (String "," (String " " q))).
Notation newA := (String Q (String "," (nl ++ q))).
Notation oldB := (String "{" q).
Notation newB := (String "{" (nl ++ q)).
Notation oldC := (String Q "}").
Notation newC := (String Q (String "," (nl ++ "}"))).
Notation RA := (replace_from oldA newA 0).
Notation RB := (replace_from oldB newB 0).
Notation RC := (replace_from oldC newC 0).

Definition badA (b : string) : Prop := exists x, b = (x ++ String Q ", ")%string.
Definition badB (b : string) : Prop := exists x, b = (x ++ "{")%string.
Definition badC (b : string) : Prop := exists x y, b = (x ++ String Q ("}" ++ y))%string.

Lemma nl_units : units nl.
Proof. apply units_plain. intros c I. rewrite la_app in I. apply in_app_or in I as [[<-|[]]|I]; [split; discriminate|]. destruct (IND c I) as [E|[]]. split; intros ->; discriminate E. Qed.
Lemma nl_break : In (chr 10) (la nl).
Proof. left. reflexivity. Qed.

Lemma RA_quote t : exists t', RA (String Q t) = String Q t'.
Proof.
  destruct (String.prefix oldA (String Q t)) eqn:P; [|rewrite RA_miss by exact P; eauto].
  cbn [replace_from]. rewrite P. cbn [append]. eauto.
Qed.
Lemma RC_quote t : exists t', RC (String Q t) = String Q t'.
Proof.
  destruct (String.prefix oldC (String Q t)) eqn:P; [|rewrite RA_miss by exact P; eauto].
  cbn [replace_from]. rewrite P. cbn [append]. eauto.
Qed.
Lemma RB_quote t : exists t', RB (String Q t) = String Q t'.
Proof. rewrite RA_other by discriminate. eauto. Qed.

(** A body followed by its closing quote: unchanged, or there is a line break in it afterwards. *)
Definition kept (R : string -> string) (b : string) : Prop := forall t, R (b ++ String Q t)%string = (b ++ R (String Q t))%string.
Definition cut (R : string -> string) (b : string) : Prop :=
  forall t, exists b' t', R (b ++ String Q t)%string = (b' ++ String Q t')%string /\ units b' /\ In (chr 10) (la b').

Lemma prefix_A b t : units b -> String.prefix oldA (String Q (b ++ String Q t)) = true -> b = ", "%string.
Proof.
  intros U P. rewrite prefix_fst in P. destruct (ascii_dec Q Q) as [_|]; [|discriminate].
  destruct b as [|c1 b]; cbn [append] in P; [rewrite prefix_fst in P; discriminate|].
  rewrite prefix_fst in P. destruct (ascii_dec "," c1) as [<-|]; [|discriminate].
  inversion U as [|? ? _ _ U1|? ? U1]; subst. destruct b as [|c2 b]; cbn [append] in P; [rewrite prefix_fst in P; discriminate|].
  rewrite prefix_fst in P. destruct (ascii_dec " " c2) as [<-|]; [|discriminate].
  inversion U1 as [|? ? _ _ U2|? ? U2]; subst. destruct b as [|c3 b]; [reflexivity|]. cbn [append] in P. rewrite prefix_fst in P.
  destruct (ascii_dec Q c3) as [<-|]; [|discriminate]. destruct (units_not_quote _ U2).
Qed.

Lemma prefix_C b t : units b -> String.prefix oldC (String Q (b ++ String Q t)) = true -> exists x, b = ("}" ++ x)%string.
Proof.
  intros U P. rewrite prefix_fst in P. destruct (ascii_dec Q Q) as [_|]; [|discriminate].
  destruct b as [|c1 b]; cbn [append] in P; rewrite prefix_fst in P; [discriminate|]. destruct (ascii_dec "}" c1) as [<-|]; [|discriminate]. exists b. reflexivity.
Qed.

Lemma badA_more c b : badA b -> badA (String c b).
Proof. intros (x & ->). now exists (String c x). Qed.
Lemma badB_more c b : badB b -> badB (String c b).
Proof. intros (x & ->). now exists (String c x). Qed.
Lemma badC_more c b : badC b -> badC (String c b).
Proof. intros (x & y & ->). now exists (String c x), y. Qed.
Ltac bad_more B := repeat first [exact B|apply badA_more|apply badB_more|apply badC_more].

Lemma passA b : units b -> (kept RA b /\ ~ badA b) \/ (cut RA b /\ badA b).
Proof.
  induction 1 as [|c s H1 H2 U IH|c s U IH].
  - left. split; [intros t; reflexivity|]. intros ([|? ?] & E); discriminate E.
  - assert (S : forall t, RA (String c s ++ String Q t)%string = String c (RA (s ++ String Q t)%string)) by (intros t; cbn [append]; apply RA_other; exact H1).
    destruct IH as [[K N]|[C Bd]].
    + left. split; [intros t; rewrite S, K; reflexivity|]. intros ([|c0 x] & E); [injection E as E _; exact (H1 E)|]. cbn in E. injection E as -> E. apply N. now exists x.
    + right. split; [|bad_more Bd]. intros t. destruct (C t) as (b' & t' & E & U' & I). exists (String c b'), t'. rewrite S, E. repeat split; [apply U_char; assumption|now right].
  - destruct (Ascii.eqb_spec c Q) as [->|NQ].
    + destruct (String.eqb_spec s ", ") as [->|NC].
      * right. split; [|exists (String backslash ""); reflexivity]. intros t. exists (String backslash (String Q (String "," nl))), (RA t). split; [|split; [|right; right; right; left; reflexivity]].
        -- cbn [append]. rewrite RA_other by discriminate. change (String Q (String "," (String " " (String Q t)))) with (oldA ++ t)%string.
           rewrite RA_hit. cbn [append]. do 3 f_equal. now rewrite sapp_assoc.
        -- apply U_esc. apply U_char; [discriminate|discriminate|exact nl_units].
      * assert (S : forall t, RA (String backslash (String Q s) ++ String Q t)%string = String backslash (String Q (RA (s ++ String Q t)%string))).
        { intros t. cbn [append]. rewrite RA_other by discriminate. f_equal. apply RA_miss. apply Bool.not_true_is_false. intros P. exact (NC (prefix_A s t U P)). }
        destruct IH as [[K N]|[C Bd]].
        -- left. split; [intros t; rewrite S, K; reflexivity|]. intros ([|c0 x] & E); [discriminate E|]. cbn in E. injection E as _ E.
           destruct x as [|c1 x]; cbn in E; [injection E as E; exact (NC E)|]. injection E as _ E. apply N. now exists x.
        -- right. split; [|bad_more Bd]. intros t. destruct (C t) as (b' & t' & E & U' & I). exists (String backslash (String Q b')), t'. rewrite S, E. repeat split; [apply U_esc; assumption|right; now right].
    + assert (S : forall t, RA (String backslash (String c s) ++ String Q t)%string = String backslash (String c (RA (s ++ String Q t)%string))).
      { intros t. cbn [append]. rewrite RA_other by discriminate. f_equal. apply RA_other. exact NQ. }
      destruct IH as [[K N]|[C Bd]].
      * left. split; [intros t; rewrite S, K; reflexivity|]. intros ([|c0 x] & E); [discriminate E|]. cbn in E. injection E as _ E.
        destruct x as [|c1 x]; cbn in E; injection E as E1 E; [exact (NQ E1)|]. apply N. now exists x.
      * right. split; [|bad_more Bd]. intros t. destruct (C t) as (b' & t' & E & U' & I). exists (String backslash (String c b')), t'. rewrite S, E. repeat split; [apply U_esc; assumption|right; now right].
Qed.

Lemma one_brace c s t : units s -> c = "{"%char -> String.prefix oldB (String c (s ++ String Q t)) = true -> s = ""%string.
Proof.
  intros U -> P. rewrite prefix_fst in P. destruct (ascii_dec "{" "{") as [_|]; [|discriminate]. destruct s as [|c1 s]; [reflexivity|]. cbn [append] in P. rewrite prefix_fst in P.
  destruct (ascii_dec Q c1) as [<-|]; [|discriminate]. destruct (units_not_quote _ U).
Qed.

(** One character [c] before [s], for the second replacement. *)
Lemma stepB c s : units s -> (c = "{"%char /\ s = ""%string /\ forall t, RB (String c (s ++ String Q t)) = (String c nl ++ String Q (RB t))%string) \/
  ((c <> "{"%char \/ s <> ""%string) /\ forall t, RB (String c (s ++ String Q t)) = String c (RB (s ++ String Q t)%string)).
Proof.
  intros U. destruct (Ascii.eqb_spec c "{") as [->|NB].
  - destruct s as [|c1 s].
    + left. repeat split. intros t. cbn [append]. change (String "{" (String Q t)) with (oldB ++ t)%string. rewrite RA_hit. cbn [append]. f_equal. now rewrite sapp_assoc.
    + right. split; [right; discriminate|]. intros t. apply RA_miss. apply Bool.not_true_is_false. intros P. discriminate (one_brace _ _ _ U eq_refl P).
  - right. split; [now left|]. intros t. apply RA_other. exact NB.
Qed.

Lemma badB_cons c s : s <> ""%string -> badB (String c s) -> badB s.
Proof. intros N ([|c0 x] & E); cbn in E; injection E as -> E; [congruence|]. now exists x. Qed.

Lemma passB b : units b -> (kept RB b /\ ~ badB b) \/ (cut RB b /\ badB b).
Proof.
  induction 1 as [|c s H1 H2 U IH|c s U IH].
  - left. split; [intros t; reflexivity|]. intros ([|? ?] & E); discriminate E.
  - destruct (stepB c s U) as [(-> & -> & S)|[D S]].
    + right. split; [|exists ""%string; reflexivity]. intros t. exists (String "{" nl), (RB t). split; [exact (S t)|]. split; [apply U_char; [discriminate|discriminate|exact nl_units]|]. right. left. reflexivity.
    + destruct IH as [[K N]|[C Bd]].
      * left. split; [intros t; cbn [append]; rewrite S, K; reflexivity|]. intros B. destruct (String.eqb_spec s "") as [->|NE]; [|exact (N (badB_cons _ _ NE B))].
        destruct B as ([|c0 x] & E); cbn in E; [injection E as E1; destruct D; congruence|]. destruct x; discriminate.
      * right. split; [|bad_more Bd]. intros t. destruct (C t) as (b' & t' & E & U' & I). exists (String c b'), t'. cbn [append]. rewrite S, E. repeat split; [apply U_char; assumption|now right].
  - destruct (stepB c s U) as [(-> & -> & S)|[D S]].
    + right. split; [|exists (String backslash ""); reflexivity]. intros t. exists (String backslash (String "{" nl)), (RB t). split; [cbn [append]; rewrite RA_other by discriminate; f_equal; exact (S t)|].
      split; [apply U_esc; exact nl_units|]. right. right. left. reflexivity.
    + assert (S' : forall t, RB (String backslash (String c s) ++ String Q t)%string = String backslash (String c (RB (s ++ String Q t)%string))).
      { intros t. cbn [append]. rewrite RA_other by discriminate. f_equal. apply S. }
      destruct IH as [[K N]|[C Bd]].
      * left. split; [intros t; rewrite S', K; reflexivity|]. intros B. apply badB_cons in B; [|discriminate]. destruct (String.eqb_spec s "") as [->|NE]; [|exact (N (badB_cons _ _ NE B))].
        destruct B as ([|c0 x] & E); cbn in E; [injection E as E1; destruct D; congruence|]. destruct x; discriminate.
      * right. split; [|bad_more Bd]. intros t. destruct (C t) as (b' & t' & E & U' & I). exists (String backslash (String c b')), t'. rewrite S', E. repeat split; [apply U_esc; assumption|right; now right].
Qed.

(** Whatever happens, a body stays a body. *)
Lemma bodyC b : units b -> forall t, exists b' t', RC (b ++ String Q t)%string = (b' ++ String Q t')%string /\ units b' /\ (In (chr 10) (la b) -> In (chr 10) (la b')).
Proof.
  assert (G : forall n b, (String.length b < n)%nat -> units b -> forall t, exists b' t', RC (b ++ String Q t)%string = (b' ++ String Q t')%string /\ units b' /\ (In (chr 10) (la b) -> In (chr 10) (la b'))).
  2:{ intros U. exact (G _ b (Nat.lt_succ_diag_r _) U). }
  clear b. induction n as [|n IH]; intros b L U t; [lia|]. destruct U as [|c s H1 H2 U|c s U].
  - destruct (RC_quote t) as (t' & E). exists ""%string, t'. cbn [append]. rewrite E. repeat split; [constructor|auto].
  - destruct (IH s ltac:(cbn in L; lia) U t) as (b' & t' & E & U' & I). exists (String c b'), t'. cbn [append]. rewrite RA_other by exact H1. rewrite E.
    repeat split; [apply U_char; assumption|]. intros [J|J]; [now left|right; auto].
  - destruct (Ascii.eqb_spec c Q) as [->|NQ].
    + destruct (String.prefix oldC (String Q (s ++ String Q t))) eqn:P.
      * destruct (prefix_C s t U P) as (x & ->). inversion U as [|? ? _ _ U1|]; subst.
        destruct (IH x ltac:(cbn in L; lia) U1 t) as (b' & t' & E & U' & I). exists (String backslash (String Q (String "," (nl ++ String "}" b')))), t'.
        split; [|split].
        -- cbn [append]. rewrite RA_other by discriminate. change (String Q (String "}" (x ++ String Q t))) with (oldC ++ (x ++ String Q t))%string.
           rewrite RA_hit, E. cbn [append]. do 3 f_equal. rewrite !sapp_assoc. reflexivity.
        -- apply U_esc. apply U_char; [discriminate|discriminate|]. apply units_app; [exact nl_units|]. apply U_char; [discriminate|discriminate|exact U'].
        -- intros _. right. right. right. left. reflexivity.
      * destruct (IH s ltac:(cbn in L; lia) U t) as (b' & t' & E & U' & I). exists (String backslash (String Q b')), t'. cbn [append]. rewrite RA_other by discriminate.
        rewrite RA_miss by exact P. rewrite E. repeat split; [apply U_esc; assumption|]. intros [J|[J|J]]; [now left|right; now left|right; right; auto].
    + destruct (IH s ltac:(cbn in L; lia) U t) as (b' & t' & E & U' & I). exists (String backslash (String c b')), t'. cbn [append]. rewrite RA_other by discriminate.
      rewrite RA_other by exact NQ. rewrite E. repeat split; [apply U_esc; assumption|]. intros [J|[J|J]]; [now left|right; now left|right; right; auto].
Qed.

Lemma passC b : units b -> (kept RC b /\ ~ badC b) \/ (cut RC b /\ badC b).
Proof.
  induction 1 as [|c s H1 H2 U IH|c s U IH].
  - left. split; [intros t; reflexivity|]. intros ([|? ?] & y & E); discriminate E.
  - assert (S : forall t, RC (String c s ++ String Q t)%string = String c (RC (s ++ String Q t)%string)) by (intros t; cbn [append]; apply RA_other; exact H1).
    destruct IH as [[K N]|[C Bd]].
    + left. split; [intros t; rewrite S, K; reflexivity|]. intros ([|c0 x] & y & E); [injection E as E _; exact (H1 E)|]. cbn in E. injection E as -> E. apply N. now exists x, y.
    + right. split; [|bad_more Bd]. intros t. destruct (C t) as (b' & t' & E & U' & I). exists (String c b'), t'. rewrite S, E. repeat split; [apply U_char; assumption|now right].
  - destruct (Ascii.eqb_spec c Q) as [->|NQ].
    + assert (DEC : (exists x, s = String "}" x) \/ forall x, s <> String "}" x).
      { destruct s as [|c1 x]; [right; discriminate|]. destruct (Ascii.eqb_spec c1 "}") as [->|N]; [left; eauto|right; intros y E; congruence]. }
      destruct DEC as [(x & ->)|NC].
      * right. split; [|exists (String backslash ""), x; reflexivity]. intros t. inversion U as [|? ? _ _ U1|]; subst. destruct (bodyC x U1 t) as (b' & t' & E & U' & _).
        exists (String backslash (String Q (String "," (nl ++ String "}" b')))), t'. split; [|split].
        -- cbn [append]. rewrite RA_other by discriminate. change (String Q (String "}" (x ++ String Q t))) with (oldC ++ (x ++ String Q t))%string.
           rewrite RA_hit, E. cbn [append]. do 3 f_equal. rewrite !sapp_assoc. reflexivity.
        -- apply U_esc. apply U_char; [discriminate|discriminate|]. apply units_app; [exact nl_units|]. apply U_char; [discriminate|discriminate|exact U'].
        -- right. right. right. left. reflexivity.
      * assert (S : forall t, RC (String backslash (String Q s) ++ String Q t)%string = String backslash (String Q (RC (s ++ String Q t)%string))).
        { intros t. cbn [append]. rewrite RA_other by discriminate. f_equal. apply RA_miss. apply Bool.not_true_is_false. intros P. destruct (prefix_C s t U P) as (x & X). exact (NC x X). }
        destruct IH as [[K N]|[C Bd]].
        -- left. split; [intros t; rewrite S, K; reflexivity|]. intros ([|c0 x] & y & E); [discriminate E|]. cbn in E. injection E as _ E.
           destruct x as [|c1 x]; cbn in E; [injection E as E; exact (NC _ E)|]. injection E as _ E. apply N. now exists x, y.
        -- right. split; [|bad_more Bd]. intros t. destruct (C t) as (b' & t' & E & U' & I). exists (String backslash (String Q b')), t'. rewrite S, E. repeat split; [apply U_esc; assumption|right; now right].
    + assert (S : forall t, RC (String backslash (String c s) ++ String Q t)%string = String backslash (String c (RC (s ++ String Q t)%string))).
      { intros t. cbn [append]. rewrite RA_other by discriminate. f_equal. apply RA_other. exact NQ. }
      destruct IH as [[K N]|[C Bd]].
      * left. split; [intros t; rewrite S, K; reflexivity|]. intros ([|c0 x] & y & E); [discriminate E|]. cbn in E. injection E as _ E.
        destruct x as [|c1 x]; cbn in E; injection E as E1 E; [exact (NQ E1)|]. apply N. now exists x, y.
      * right. split; [|bad_more Bd]. intros t. destruct (C t) as (b' & t' & E & U' & I). exists (String backslash (String c b')), t'. rewrite S, E. repeat split; [apply U_esc; assumption|right; now right].
Qed.

(** ** A body at its place *)

Definition closing (b : string) : Prop := exists x, b = ("}" ++ x)%string.

Lemma insideA b t : units b -> exists b' t', RA (b ++ String Q t)%string = (b' ++ String Q t')%string /\ units b' /\
  ((b' = b /\ ~ badA b) \/ In (chr 10) (la b')).
Proof.
  intros U. destruct (passA b U) as [[K N]|[C _]].
  - destruct (RA_quote t) as (t' & E). exists b, t'. rewrite K, E. auto.
  - destruct (C t) as (b' & t' & E & U' & I). exists b', t'. auto.
Qed.
Lemma openA b t : units b -> exists b' t', RA (String Q (b ++ String Q t)) = String Q (b' ++ String Q t') /\ units b' /\
  ((b' = b /\ ~ badA b /\ b <> ", "%string) \/ In (chr 10) (la b')).
Proof.
  intros U. destruct (String.eqb_spec b ", ") as [->|N].
  - exists (String "," nl), (RA t). split; [|split].
    + change (String Q (", " ++ String Q t)) with (oldA ++ t)%string. rewrite RA_hit. cbn [append]. do 2 f_equal. now rewrite sapp_assoc.
    + apply U_char; [discriminate|discriminate|exact nl_units].
    + right. right. left. reflexivity.
  - rewrite RA_miss by (apply Bool.not_true_is_false; intros P; exact (N (prefix_A b t U P))).
    destruct (insideA b t U) as (b' & t' & E & U' & D). exists b', t'. rewrite E. intuition.
Qed.
Lemma insideB b t : units b -> exists b' t', RB (b ++ String Q t)%string = (b' ++ String Q t')%string /\ units b' /\
  ((b' = b /\ ~ badB b) \/ In (chr 10) (la b')).
Proof.
  intros U. destruct (passB b U) as [[K N]|[C _]].
  - destruct (RB_quote t) as (t' & E). exists b, t'. rewrite K, E. auto.
  - destruct (C t) as (b' & t' & E & U' & I). exists b', t'. auto.
Qed.
Lemma openC b t : units b -> exists b' t', RC (String Q (b ++ String Q t)) = String Q (b' ++ String Q t') /\ units b' /\
  ((b' = b /\ ~ badC b /\ ~ closing b) \/ In (chr 10) (la b')).
Proof.
  intros U. destruct (String.prefix oldC (String Q (b ++ String Q t))) eqn:P.
  - destruct (prefix_C b t U P) as (x & ->). inversion U as [|? ? _ _ U1|]; subst. destruct (bodyC x U1 t) as (b' & t' & E & U' & _).
    exists (String "," (nl ++ String "}" b')), t'. split; [|split].
    + change (String Q (("}" ++ x) ++ String Q t)) with (oldC ++ (x ++ String Q t))%string. rewrite RA_hit, E. cbn [append]. do 2 f_equal. rewrite !sapp_assoc. reflexivity.
    + apply U_char; [discriminate|discriminate|]. apply units_app; [exact nl_units|]. apply U_char; [discriminate|discriminate|exact U'].
    + right. right. left. reflexivity.
  - rewrite RA_miss by exact P. assert (NC : ~ closing b).
    { intros (x & ->). cbn [append] in P. rewrite !prefix_fst in P. destruct (ascii_dec Q Q); [|congruence]. destruct (ascii_dec "}" "}"); [|congruence]. destruct (x ++ String Q t)%string; discriminate P. }
    destruct (passC b U) as [[K N]|[C _]].
    + destruct (RC_quote t) as (t' & E). exists b, t'. rewrite K, E. auto 6.
    + destruct (C t) as (b' & t' & E & U' & I). exists b', t'. rewrite E. auto.
Qed.

(** ** Entries that nothing is found in *)

Definition fine (b : string) : Prop := units b /\ ~ badA b /\ ~ badB b /\ ~ badC b /\ ~ closing b.
Definition fine_entry (kv : string * string) : Prop := fine (fst kv) /\ fine (snd kv) /\ snd kv <> ", "%string.

Lemma fine_A b : fine b -> kept RA b.
Proof. intros (U & A & _). destruct (passA b U) as [[K _]|[_ B]]; [exact K|contradiction]. Qed.
Lemma fine_B b : fine b -> kept RB b.
Proof. intros (U & _ & A & _). destruct (passB b U) as [[K _]|[_ B]]; [exact K|contradiction]. Qed.
Lemma fine_C b : fine b -> kept RC b.
Proof. intros (U & _ & _ & A & _). destruct (passC b U) as [[K _]|[_ B]]; [exact K|contradiction]. Qed.
Lemma fine_openA b t : fine b -> b <> ", "%string -> RA (String Q (b ++ String Q t)) = String Q (b ++ RA (String Q t)).
Proof. intros F N. rewrite RA_miss by (apply Bool.not_true_is_false; intros P; exact (N (prefix_A b t (proj1 F) P))). now rewrite (fine_A b F). Qed.
Lemma fine_openC b t : fine b -> RC (String Q (b ++ String Q t)) = String Q (b ++ RC (String Q t)).
Proof.
  intros F. rewrite RA_miss. { now rewrite (fine_C b F). }
  apply Bool.not_true_is_false. intros P. destruct F as (U & _ & _ & _ & N). exact (N (prefix_C b t U P)).
Qed.

(** Entries from after the opening quote of the first up to the opening quote of the next key. *)
Fixpoint front (sep : string) (m : list (string * string)) : string :=
  match m with
  | [] => EmptyString
  | (k, v) :: m' => k ++ String Q (String ":" (String Q (v ++ String Q (sep ++ String Q (front sep m')))))
  end%string.
(** The same from one opening quote up to before the other. *)
Fixpoint fr (sep : string) (m : list (string * string)) : string :=
  match m with
  | [] => EmptyString
  | (k, v) :: m' => String Q (k ++ String Q (String ":" (String Q (v ++ String Q (sep ++ fr sep m')))))
  end%string.
Lemma front_fr sep m t : String Q (front sep m ++ t) = (fr sep m ++ String Q t)%string.
Proof.
  revert t. induction m as [|[k v] m IH]; intros t; [reflexivity|]. cbn [front fr]. repeat (rewrite ?sapp_assoc; cbn [append]). rewrite IH. reflexivity.
Qed.

Notation sepN := (String "," nl).

Lemma frontA m t : Forall fine_entry m -> RA (front ", " m ++ t)%string = (front sepN m ++ RA t)%string.
Proof.
  induction 1 as [|[k v] m (K & V & N) F IH]; [reflexivity|]. cbn [fst snd] in *. cbn [front]. repeat (rewrite ?sapp_assoc; cbn [append]).
  rewrite (fine_A k K). f_equal. rewrite RA_miss by reflexivity. f_equal. rewrite RA_other by discriminate. f_equal.
  rewrite fine_openA by assumption. do 2 f_equal.
  change (String Q (String "," (String " " (String Q (front ", " m ++ t))))) with (oldA ++ (front ", " m ++ t))%string.
  rewrite RA_hit, IH. cbn [append]. do 2 f_equal. rewrite !sapp_assoc. reflexivity.
Qed.

Lemma nl_free c : byte_of c <> 9 -> byte_of c <> 10 -> ~ In c (la nl).
Proof. intros B9 B10 I. rewrite la_app in I. apply in_app_or in I as [[<-|[]]|I]; [apply B10; reflexivity|]. destruct (IND c I) as [E|[]]. congruence. Qed.

Lemma frontB m t : Forall fine_entry m -> RB (front sepN m ++ t)%string = (front sepN m ++ RB t)%string.
Proof.
  induction 1 as [|[k v] m (K & V & N) F IH]; [reflexivity|]. cbn [fst snd] in *. cbn [front]. repeat (rewrite ?sapp_assoc; cbn [append]).
  rewrite (fine_B k K). f_equal. rewrite RA_other by discriminate. f_equal. rewrite RA_other by discriminate. f_equal. rewrite RA_other by discriminate. f_equal.
  rewrite (fine_B v V). f_equal. rewrite RA_other by discriminate. f_equal. rewrite RA_other by discriminate. f_equal.
  rewrite <- (sapp_assoc newline ind). rewrite (RA_skip "{"%char q newB nl) by (apply nl_free; discriminate). rewrite RA_other by discriminate. rewrite IH. reflexivity.
Qed.

Lemma frC m t : Forall fine_entry m -> RC (fr sepN m ++ t)%string = (fr sepN m ++ RC t)%string.
Proof.
  induction 1 as [|[k v] m (K & V & N) F IH]; [reflexivity|]. cbn [fst snd] in *. cbn [fr]. repeat (rewrite ?sapp_assoc; cbn [append]).
  rewrite (fine_openC k) by exact K. do 2 f_equal. rewrite RA_miss by reflexivity. f_equal. rewrite RA_other by discriminate. f_equal.
  rewrite (fine_openC v) by exact V. do 2 f_equal. rewrite RA_miss by reflexivity. f_equal. rewrite RA_other by discriminate. f_equal.
  rewrite <- (sapp_assoc newline ind).
  rewrite (RA_skip Q "}"%string newC nl) by (apply nl_free; discriminate). rewrite IH. reflexivity.
Qed.
(** ** The whole text *)

Section Whole.
Variable P : string.
Hypothesis PQ : ~ In Q (la P).
Hypothesis PB : ~ In "{"%char (la P).

Definition three (x : string) : string := RC (RB (RA x)).

(** From what the first replacement leaves after the first brace. *)
Lemma three_from x y : RA (String Q x) = String Q y -> three (P ++ String "{" (String Q x)) = (P ++ String "{" (nl ++ RC (String Q (RB y))))%string.
Proof.
  intros E. unfold three. rewrite (RA_skip Q) by exact PQ. rewrite (RA_other Q) by discriminate. rewrite E.
  rewrite (RA_skip "{"%char) by exact PB. change (String "{" (String Q y)) with (oldB ++ y)%string. rewrite RA_hit.
  rewrite (RA_skip Q) by exact PQ. f_equal. cbn [append]. rewrite (RA_other Q) by discriminate. f_equal.
  replace ((nl ++ q) ++ RB y)%string with (nl ++ String Q (RB y))%string by (now rewrite (sapp_assoc nl)).
  rewrite (RA_skip Q "}"%string newC nl) by (apply nl_free; discriminate). reflexivity.
Qed.

Definition first_ok (m : list (string * string)) : Prop := match m with [] => True | (k, _) :: _ => k <> ", "%string end.

(** The first replacement up to a key that is not the first. *)
Lemma leadA m t : m <> [] -> first_ok m -> Forall fine_entry m -> RA (String Q (front ", " m ++ t)) = String Q (front sepN m ++ RA t).
Proof.
  intros N O F. rewrite <- frontA by exact F. destruct m as [|[k v] m]; [congruence|]. inversion F as [|? ? (K & V & _) _]; subst. cbn [fst snd] in *.
  cbn [front]. repeat (rewrite ?sapp_assoc; cbn [append]). apply RA_miss. apply Bool.not_true_is_false. intros X. exact (O (prefix_A k _ (proj1 K) X)).
Qed.

Lemma leadC m t : Forall fine_entry m -> RC (String Q (front sepN m ++ t)) = (fr sepN m ++ RC (String Q t))%string.
Proof. intros F. rewrite front_fr, frC by exact F. reflexivity. Qed.

Definition spoiled (b : string) : Prop := badA b \/ badB b \/ badC b \/ closing b.

Lemma bad_key m k t : Forall fine_entry m -> first_ok m -> units k -> spoiled k \/ (m = [] /\ k = ", "%string) ->
  exists k' t', three (P ++ String "{" (String Q (front ", " m ++ k ++ String Q t))) = (P ++ String "{" (nl ++ String Q (front sepN m ++ k' ++ String Q t')))%string /\
    units k' /\ In (chr 10) (la k').
Proof.
  intros F O U B.
  assert (A : exists k1 t1, RA (String Q (front ", " m ++ k ++ String Q t)) = String Q (front sepN m ++ k1 ++ String Q t1) /\ units k1 /\
    ((k1 = k /\ ~ badA k /\ (m = [] -> k <> ", "%string)) \/ In (chr 10) (la k1))).
  { destruct m as [|e m].
    - cbn [front append]. destruct (openA k t U) as (k1 & t1 & E & U1 & D). exists k1, t1. intuition.
    - rewrite leadA by (assumption || discriminate). destruct (insideA k t U) as (k1 & t1 & E & U1 & D). exists k1, t1. rewrite E. repeat split; [exact U1|].
      destruct D as [[-> D]|D]; [left; repeat split; [exact D|discriminate]|now right]. }
  destruct A as (k1 & t1 & EA & U1 & DA). rewrite (three_from _ _ EA). rewrite frontB by exact F.
  destruct (insideB k1 t1 U1) as (k2 & t2 & EB & U2 & DB). rewrite EB. rewrite leadC by exact F.
  destruct (openC k2 t2 U2) as (k3 & t3 & EC & U3 & DC). rewrite EC. exists k3, t3. rewrite front_fr. repeat split; [exact U3|].
  destruct DC as [(-> & C1 & C2)|I]; [|exact I]. destruct DB as [(-> & B1)|I]; [|exact I]. destruct DA as [(-> & A1 & A2)|I]; [|exact I].
  exfalso. unfold spoiled in B. tauto.
Qed.

Lemma bad_value m k v t : Forall fine_entry m -> first_ok (m ++ [(k, v)]) -> fine k -> units v -> spoiled v \/ v = ", "%string ->
  exists v' t', three (P ++ String "{" (String Q (front ", " m ++ k ++ String Q (String ":" (String Q (v ++ String Q t)))))) =
    (P ++ String "{" (nl ++ String Q (front sepN m ++ k ++ String Q (String ":" (String Q (v' ++ String Q t'))))))%string /\
    units v' /\ In (chr 10) (la v').
Proof.
  intros F O K U B.
  assert (A : exists v1 t1, RA (String Q (front ", " m ++ k ++ String Q (String ":" (String Q (v ++ String Q t))))) =
      String Q (front sepN m ++ k ++ String Q (String ":" (String Q (v1 ++ String Q t1)))) /\ units v1 /\
    ((v1 = v /\ ~ badA v /\ v <> ", "%string) \/ In (chr 10) (la v1))).
  { destruct (openA v t U) as (v1 & t1 & E & U1 & D). exists v1, t1. split; [|auto].
    assert (X : RA (k ++ String Q (String ":" (String Q (v ++ String Q t))))%string = (k ++ String Q (String ":" (String Q (v1 ++ String Q t1))))%string).
    { rewrite (fine_A k K). f_equal. rewrite RA_miss by reflexivity. f_equal. rewrite RA_other by discriminate. f_equal. exact E. }
    destruct m as [|e m].
    - cbn [front append]. rewrite RA_miss. { now rewrite X. } apply Bool.not_true_is_false. intros Y. exact (O (prefix_A k _ (proj1 K) Y)).
    - rewrite leadA; [now rewrite X|discriminate|exact O|exact F]. }
  destruct A as (v1 & t1 & EA & U1 & DA). rewrite (three_from _ _ EA). rewrite frontB by exact F. rewrite (fine_B k K).
  rewrite (RA_other "{"%char) by discriminate. rewrite (RA_other "{"%char) by discriminate. rewrite (RA_other "{"%char) by discriminate.
  destruct (insideB v1 t1 U1) as (v2 & t2 & EB & U2 & DB). rewrite EB. rewrite leadC by exact F. rewrite (fine_openC k) by exact K.
  rewrite (RA_miss Q) by reflexivity. rewrite (RA_other Q) by discriminate.
  destruct (openC v2 t2 U2) as (v3 & t3 & EC & U3 & DC). rewrite EC. exists v3, t3. rewrite front_fr. repeat split; [exact U3|].
  destruct DC as [(-> & C1 & C2)|I]; [|exact I]. destruct DB as [(-> & B1)|I]; [|exact I]. destruct DA as [(-> & A1 & A2)|I]; [|exact I].
  exfalso. unfold spoiled in B. tauto.
Qed.

Lemma all_fine m k v : Forall fine_entry (m ++ [(k, v)]) -> first_ok (m ++ [(k, v)]) ->
  three (P ++ String "{" (String Q (front ", " m ++ k ++ String Q (String ":" (String Q (v ++ String Q ("}" ++ newline))))))) =
    (P ++ String "{" (nl ++ String Q (front sepN m ++ k ++ String Q (String ":" (String Q (v ++ String Q (sepN ++ "}" ++ newline)))))))%string.
Proof.
  intros F O. apply Forall_app in F as [F L]. inversion L as [|? ? (K & V & NV) _]; subst. cbn [fst snd] in *.
  assert (HA : RA (String Q ("}" ++ newline)) = String Q ("}" ++ newline)) by reflexivity.
  assert (HB : RB (String Q ("}" ++ newline)) = String Q ("}" ++ newline)) by reflexivity.
  assert (HC : RC (String Q ("}" ++ newline)) = String Q (sepN ++ "}" ++ newline)).
  { change (String Q ("}" ++ newline)) with (oldC ++ newline)%string. rewrite RA_hit. change (RC newline) with newline. cbn [append]. do 2 f_equal. now rewrite sapp_assoc. }
  revert HA HB HC. generalize ("}" ++ newline)%string at 1 2 3 4 5 7. intros tl HA HB HC.
  assert (A : RA (String Q (front ", " m ++ k ++ String Q (String ":" (String Q (v ++ String Q tl))))) =
      String Q (front sepN m ++ k ++ String Q (String ":" (String Q (v ++ String Q tl))))).
  { assert (X : RA (k ++ String Q (String ":" (String Q (v ++ String Q tl))))%string = (k ++ String Q (String ":" (String Q (v ++ String Q tl))))%string).
    { rewrite (fine_A k K). f_equal. rewrite RA_miss by reflexivity. f_equal. rewrite RA_other by discriminate. f_equal. rewrite fine_openA by assumption. now rewrite HA. }
    destruct m as [|e m].
    - cbn [front append]. rewrite RA_miss. { now rewrite X. } apply Bool.not_true_is_false. intros Y. exact (O (prefix_A k _ (proj1 K) Y)).
    - rewrite leadA; [now rewrite X|discriminate|exact O|exact F]. }
  rewrite (three_from _ _ A). rewrite frontB by exact F. rewrite (fine_B k K).
  rewrite (RA_other "{"%char) by discriminate. rewrite (RA_other "{"%char) by discriminate. rewrite (RA_other "{"%char) by discriminate.
  rewrite (fine_B v V), HB. rewrite leadC by exact F. rewrite (fine_openC k) by exact K. rewrite (RA_miss Q) by reflexivity. rewrite (RA_other Q) by discriminate.
  rewrite (fine_openC v) by exact V. rewrite HC. rewrite front_fr. reflexivity.
Qed.
End Whole.
End Passes.
