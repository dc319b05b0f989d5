(** * RenderProofs: lemmas behind C66. *)

From Verif Require Import Base Utf8 Unicode Words Ascii ContractionsGen Generators GenSpec Render RenderSpec StreamProofs Utf8Proofs WordsProofs WordSplitProofs TokenProofs GeneratorProofs.
Local Open Scope N_scope.

Notation la := list_ascii_of_string.

Lemma la_app a b : la (a ++ b)%string = la a ++ la b.
Proof. induction a as [|c a IH]; cbn; [reflexivity|now rewrite IH]. Qed.

(** ** Quoting *)

Lemma chunk_strong s r b : In (r, b) (chunks s) -> (valid_rune r = true /\ b = encode_rune r) \/ (r = RuneError /\ exists c, b = String c "").
Proof.
  remember (String.length s) as n eqn:En. revert s En. induction n as [n IH] using (well_founded_induction Wf_nat.lt_wf). intros s En H.
  set (P := fun (r : N) b => (valid_rune r = true /\ b = encode_rune r) \/ (r = RuneError /\ exists c, b = String c "")).
  destruct s as [|c s]; [destruct H|].
  assert (R : forall s' r' b', chunks (String c s) = (r', b') :: chunks s' -> (String.length s' < n)%nat -> P r' b' -> P r b).
  { intros s' r' b' E L D. rewrite E in H. destruct H as [H|H]; [injection H as -> ->; exact D|]. exact (IH _ L s' eq_refl H). }
  cbn [String.length] in En.
  destruct (byte_of c <? 128) eqn:E1.
  { ranges. destruct (enc1 c E1) as [A B]. apply (R s (byte_of c) (String c "")); [|lia|left; now rewrite encode_rune_valid, A].
    cbn [chunks]. t_ltb true. reflexivity. }
  assert (Bad : chunks (String c s) = (RuneError, String c "") :: chunks s -> P r b).
  { intros E. apply (R s RuneError (String c "")); [exact E|lia|right; eauto]. }
  destruct (in_range 194 223 (byte_of c)) eqn:E2.
  { destruct s as [|c2 s2]; [apply Bad; cbn [chunks]; now rewrite E1, E2|].
    destruct (cont (byte_of c2)) eqn:C2; [|apply Bad; cbn [chunks]; now rewrite E1, E2, C2].
    destruct (enc2 c c2 E2 C2) as [A B]. eapply (R s2); [cbn [chunks]; rewrite E1, E2, C2; reflexivity|cbn in En; lia|left; now rewrite encode_rune_valid, A]. }
  destruct (in_range 224 239 (byte_of c)) eqn:E3.
  { destruct s as [|c2 [|c3 s3]]; try (apply Bad; cbn [chunks]; now rewrite E1, E2, E3).
    destruct (in_range (lo3 (byte_of c)) (hi3 (byte_of c)) (byte_of c2)) eqn:C2; [|apply Bad; cbn [chunks]; now rewrite E1, E2, E3, C2].
    destruct (cont (byte_of c3)) eqn:C3; [|apply Bad; cbn [chunks]; now rewrite E1, E2, E3, C2, C3].
    destruct (enc3 c c2 c3 E3 C2 C3) as [A B]. eapply (R s3); [cbn [chunks]; rewrite E1, E2, E3, C2, C3; reflexivity|cbn in En; lia|left; now rewrite encode_rune_valid, A]. }
  destruct (in_range 240 244 (byte_of c)) eqn:E4; [|apply Bad; cbn [chunks]; now rewrite E1, E2, E3, E4].
  destruct s as [|c2 [|c3 [|c4 s4]]]; try (apply Bad; cbn [chunks]; now rewrite E1, E2, E3, E4).
  destruct (in_range (lo4 (byte_of c)) (hi4 (byte_of c)) (byte_of c2)) eqn:C2; [|apply Bad; cbn [chunks]; now rewrite E1, E2, E3, E4, C2].
  destruct (cont (byte_of c3)) eqn:C3; [|apply Bad; cbn [chunks]; now rewrite E1, E2, E3, E4, C2, C3].
  destruct (cont (byte_of c4)) eqn:C4; [|apply Bad; cbn [chunks]; now rewrite E1, E2, E3, E4, C2, C3, C4].
  destruct (enc4 c c2 c3 c4 E4 C2 C3 C4) as [A B]. eapply (R s4); [cbn [chunks]; rewrite E1, E2, E3, E4, C2, C3, C4; reflexivity|cbn in En; lia|left; now rewrite encode_rune_valid, A].
Qed.

Lemma hexdigit_value n : n < 16 -> digit_value (hexdigit n) = Some n.
Proof.
  intros H. assert (G : forallb (fun k => match digit_value (hexdigit (N.of_nat k)) with Some d => d =? N.of_nat k | None => false end) (seq 0 16) = true)
    by (vm_compute; reflexivity).
  rewrite forallb_forall in G. specialize (G (N.to_nat n)). rewrite N2Nat.id in G.
  destruct (digit_value (hexdigit n)) as [d|]; [|discriminate G; apply in_seq; lia]. f_equal. apply N.eqb_eq, G, in_seq. lia.
Qed.

Lemma digits_snoc base acc s n c d : digits base acc s n -> digit_value c = Some d -> d < base -> digits base acc (s ++ String c "") (n * base + d).
Proof. induction 1; intros V L; cbn [append]; econstructor; eauto; constructor. Qed.

Lemma hexdigits_value k : forall n, n < 16 ^ N.of_nat k -> digits 16 0 (hexdigits k n) n.
Proof.
  induction k as [|k IH]; intros n H.
  - cbn [hexdigits]. change (16 ^ N.of_nat 0) with 1 in H. replace n with 0 by lia. constructor.
  - cbn [hexdigits]. replace n with (n / 16 * 16 + n mod 16) at 3 by (pose proof (N.div_mod n 16); lia).
    pose proof (N.mod_lt n 16 ltac:(lia)). apply digits_snoc; [|apply hexdigit_value; lia|lia]. apply IH.
    rewrite Nat2N.inj_succ, N.pow_succ_r' in H. apply N.div_lt_upper_bound; lia.
Qed.

Lemma hexdigits_length k : forall n, String.length (hexdigits k n) = k.
Proof.
  induction k as [|k IH]; intros n; cbn [hexdigits]; [reflexivity|].
  assert (A : forall a b, String.length (a ++ b)%string = (String.length a + String.length b)%nat) by (induction a; intros; cbn; auto).
  rewrite A, IH. cbn. lia.
Qed.

Lemma hexdigits_chars k : forall n c, In c (la (hexdigits k n)) -> 48 <= byte_of c <= 57 \/ 97 <= byte_of c <= 102.
Proof.
  induction k as [|k IH]; intros n c I; cbn [hexdigits] in I; [destruct I|]. rewrite la_app in I. apply in_app_or in I as [I|[<-|[]]]; [eauto|].
  pose proof (N.mod_lt n 16 ltac:(lia)). unfold hexdigit. destruct (n mod 16 <? 10) eqn:E; ranges; rewrite byte_chr by lia; lia.
Qed.

Section Quote.
Variable isPrint : N -> bool.
Hypothesis PO : print_ok isPrint.

Lemma literal_rune r src v : valid_rune r = true -> literal src v -> literal (escaped_rune isPrint r ++ src) (encode_rune r ++ v).
Proof.
  intros V L. unfold escaped_rune.
  assert (S : forall c n, In (c, n) simple_escapes -> n < 128 -> r = n -> literal (String backslash (String c "") ++ src) (encode_rune r ++ v)).
  { intros c n I Ln ->. rewrite encode_rune_valid by exact V. unfold enc_raw. rewrite (proj2 (N.ltb_lt _ _) Ln). exact (L_simple c n src v I L). }
  destruct (r =? 34) eqn:E34; cbn [orb].
  { apply N.eqb_eq in E34. replace (chr r) with (chr 34) by now rewrite E34. apply (S (chr 34) 34); [cbn; auto 12|lia|exact E34]. }
  destruct (r =? 92) eqn:E92.
  { apply N.eqb_eq in E92. replace (chr r) with (chr 92) by now rewrite E92. apply (S (chr 92) 92); [cbn; auto 12|lia|exact E92]. }
  destruct (isPrint r) eqn:P.
  { specialize (PO r P). apply N.eqb_neq in E34, E92. apply L_char; [exact V| |exact L]. cbn. lia. }
  repeat match goal with |- literal ((if r =? ?n then String backslash (String ?c "") else _) ++ _) _ =>
    let E := fresh in destruct (r =? n) eqn:E; [apply N.eqb_eq in E; apply (S c n); [cbn; auto 12|lia|exact E]|] end.
  destruct ((r <? 32) || (r =? 127)) eqn:C.
  { assert (r < 128) by (apply orb_prop in C as [C|C]; ranges; lia).
    rewrite encode_rune_valid by exact V. unfold enc_raw. t_ltb true. cbn [append]. apply L_hex; [apply hexdigits_length|apply hexdigits_value; lia|exact L]. }
  pose proof V as V'. destruct (r <? 65536) eqn:B; cbn [append].
  - apply L_little_u; [apply hexdigits_length|apply hexdigits_value; ranges; lia|exact V|exact L].
  - apply L_big_u; [apply hexdigits_length|apply hexdigits_value; ranges; lia|exact V|exact L].
Qed.

Definition qbody (s : string) : string := sconcat (map (escaped isPrint) (chunks s)).

Lemma Quote_quoted s : Quote isPrint s = quoted (qbody s).
Proof. reflexivity. Qed.

Lemma literal_qbody s : literal (qbody s) s.
Proof.
  unfold qbody. assert (H : forall r b, In (r, b) (chunks s) -> (valid_rune r = true /\ b = encode_rune r) \/ (r = RuneError /\ exists c, b = String c ""))
    by (intros; eapply chunk_strong; eauto).
  rewrite <- (chunks_text s) at 2. revert H. induction (chunks s) as [|[r b] l IH]; intros H; [constructor|].
  cbn [map sconcat snd]. assert (IH' : literal (sconcat (map (escaped isPrint) l)) (sconcat (map snd l))) by (apply IH; intros; apply H; now right).
  destruct (H r b (or_introl eq_refl)) as [[V ->]|(-> & c & ->)].
  - unfold escaped. destruct (encode_rune r) as [|c [|c' e]] eqn:E; [rewrite <- E; apply literal_rune; assumption| |rewrite <- E; apply literal_rune; assumption].
    destruct (r =? RuneError) eqn:X; [|rewrite <- E; apply literal_rune; assumption].
    apply N.eqb_eq in X. subst r. vm_compute in E. discriminate.
  - unfold escaped. rewrite N.eqb_refl. cbn [append]. rewrite <- (chr_byte c) at 2. apply L_hex; [apply hexdigits_length| |exact IH'].
    apply hexdigits_value. pose proof (byte_lt c). cbn. lia.
Qed.

Definition harmful (c : ascii) : Prop := byte_of c = 34 \/ byte_of c = 123 \/ byte_of c = 125.

Lemma escaped_rune_free r : valid_rune r = true -> (forall c, In c (la (encode_rune r)) -> ~ harmful c) ->
  forall c, In c (la (escaped_rune isPrint r)) -> ~ harmful c.
Proof.
  intros V H c I. unfold escaped_rune in I.
  destruct (r =? 34) eqn:E34; [apply N.eqb_eq in E34; subst r; destruct (H (chr 34)); [left; reflexivity|left; reflexivity]|]. cbn [orb] in I.
  unfold harmful.
  assert (X : forall a, In c (la (String backslash a)) -> (In c (la a) -> byte_of c < 123 /\ byte_of c <> 34) -> ~ (byte_of c = 34 \/ byte_of c = 123 \/ byte_of c = 125)).
  { intros a [<-|J] K; [vm_compute; intuition discriminate|specialize (K J); lia]. }
  assert (Y : forall x, byte_of x < 123 -> byte_of x <> 34 -> In c (la (String backslash (String x ""))) -> ~ (byte_of c = 34 \/ byte_of c = 123 \/ byte_of c = 125)).
  { intros x A B J. apply (X _ J). intros [<-|[]]. auto. }
  assert (Z : forall x k n, byte_of x < 123 -> byte_of x <> 34 -> In c (la (String backslash (String x (hexdigits k n)))) -> ~ (byte_of c = 34 \/ byte_of c = 123 \/ byte_of c = 125)).
  { intros x k n A B J. apply (X _ J). intros [<-|J']; [auto|]. apply hexdigits_chars in J'. lia. }
  destruct (r =? 92) eqn:E92; [apply N.eqb_eq in E92; subst r; eapply Y; [| |exact I]; [reflexivity|discriminate] |].
  destruct (isPrint r); [exact (H c I)|].
  repeat match type of I with In _ (la (if ?b then _ else _)) => destruct b; [first [eapply Y; [| |exact I]; [reflexivity|discriminate]|eapply Z; [| |exact I]; [reflexivity|discriminate]]|] end.
  eapply Z; [| |exact I]; [reflexivity|discriminate].
Qed.

Lemma la_sconcat c l : In c (la (sconcat l)) <-> exists x, In x l /\ In c (la x).
Proof.
  induction l as [|x l IH]; cbn [sconcat]; [split; [intros []|intros (? & [] & _)]|]. rewrite la_app, in_app_iff, IH. split.
  - intros [I|(y & I & J)]; [exists x; split; [now left|exact I]|exists y; split; [now right|exact J]].
  - intros (y & [<-|I] & J); [now left|right; eauto].
Qed.

Lemma qbody_free s : (forall c, In c (la s) -> ~ harmful c) -> forall c, In c (la (qbody s)) -> ~ harmful c.
Proof.
  intros H c I. unfold qbody in I. apply la_sconcat in I as (x & I & J). apply in_map_iff in I as ([r b] & <- & I).
  assert (Hb : forall c, In c (la b) -> ~ harmful c).
  { intros c' J'. apply H. rewrite <- (chunks_text s). apply la_sconcat. exists b. split; [apply in_map_iff; exists (r, b); auto|exact J']. }
  destruct (chunk_strong _ _ _ I) as [[V ->]|(-> & c0 & ->)].
  - unfold escaped in J. destruct (encode_rune r) as [|c1 [|c2 e]] eqn:E; rewrite <- E in Hb; try (eapply escaped_rune_free; eassumption).
    destruct (r =? RuneError) eqn:X; [apply N.eqb_eq in X; subst r; vm_compute in E; discriminate|eapply escaped_rune_free; eassumption].
  - unfold escaped in J. rewrite N.eqb_refl in J. destruct J as [<-|[<-|J]]; try (vm_compute; intuition discriminate).
    apply hexdigits_chars in J. unfold harmful. lia.
Qed.

Lemma rune_prefix r a x y : valid_rune r = true -> a < 128 -> (encode_rune r ++ x)%string = String (chr a) y -> r = a /\ x = y.
Proof.
  intros V A E. assert (Va : valid_rune a = true) by (apply valid_rune_spec; lia).
  assert (Ea : String (chr a) y = (enc_raw a ++ y)%string) by (unfold enc_raw; t_ltb true; reflexivity).
  rewrite encode_rune_valid in E by exact V. rewrite Ea in E. pose proof (f_equal runes E) as F. rewrite !runes_enc in F by assumption.
  injection F as -> _. split; [reflexivity|]. unfold enc_raw in E. revert E. t_ltb true. cbn [append]. intros E. now injection E.
Qed.

Lemma literal_comma v : literal ", " v -> v = ", "%string.
Proof.
  intros L. inversion L as [|r src v' V N L' E| | | | |]; subst; try discriminate.
  destruct (rune_prefix r 44 src " " V ltac:(lia) E) as [-> ->].
  inversion L' as [|r2 src2 v2 V2 N2 L2 E2| | | | |]; subst; try discriminate.
  destruct (rune_prefix r2 32 src2 "" V2 ltac:(lia) E2) as [-> ->].
  inversion L2 as [|r3 src3 v3 V3 N3 L3 E3| | | | |]; subst; [reflexivity|].
  exfalso. destruct (encode_rune r3) eqn:X; [|discriminate]. rewrite encode_rune_valid in X by exact V3. pose proof (enc_raw_length r3) as Y. rewrite X in Y. cbn in Y. lia.
Qed.
End Quote.

(** ** ReplaceAll *)

Section Replace.
Variables (o : ascii) (old' new : string).
Notation old := (String o old').
Notation RA := (replace_from old new 0).

Lemma RA_miss c r : String.prefix old (String c r) = false -> RA (String c r) = String c (RA r).
Proof. intros H. cbn [replace_from]. rewrite H. reflexivity. Qed.

Lemma RA_other c r : c <> o -> RA (String c r) = String c (RA r).
Proof. intros H. apply RA_miss. cbn [String.prefix]. destruct (ascii_dec o c); [congruence|reflexivity]. Qed.

Lemma RA_skip a t : ~ In o (la a) -> RA (a ++ t) = (a ++ RA t)%string.
Proof.
  induction a as [|c a IH]; intros H; [reflexivity|]. cbn [append]. rewrite RA_other, IH; [reflexivity| |].
  - intros J. apply H. now right.
  - intros ->. apply H. now left.
Qed.

Lemma RA_skipping x t : replace_from old new (String.length x) (x ++ t) = RA t.
Proof. induction x as [|c x IH]; [reflexivity|]. cbn [String.length append replace_from]. exact IH. Qed.

Lemma prefix_app x t : String.prefix x (x ++ t) = true.
Proof. induction x as [|c x IH]; [destruct t; reflexivity|]. cbn [append String.prefix]. destruct (ascii_dec c c); [exact IH|congruence]. Qed.

Lemma RA_hit t : RA (old ++ t) = (new ++ RA t)%string.
Proof.
  change (old ++ t)%string with (String o (old' ++ t)). cbn [replace_from]. change (String o (old' ++ t)) with (old ++ t)%string.
  rewrite prefix_app. cbn [String.length]. replace (S (String.length old') - 1)%nat with (String.length old') by lia. now rewrite RA_skipping.
Qed.
End Replace.

(** ** The templates *)

Definition head_ok (t : target) : Prop :=
  ~ In quote (la (t_head t)) /\ ~ In "{"%char (la (t_head t)) /\ only [9] (t_indent t).

Lemma only_free ind b : only [9] ind -> byte_of b <> 9 -> ~ In b (la ind).
Proof. intros O N I. destruct (O _ I) as [E|[]]. congruence. Qed.

Lemma only_nil l : only l "".
Proof. intros c []. Qed.
Lemma white_break ind : only [9] ind -> white (String (chr 10) ind).
Proof. intros O c [<-|I]; [cbn; auto|]. destruct (O c I) as [E|[]]. rewrite <- E. cbn. auto. Qed.

Definition head_of (pkg h : string) : Prop := exists a b, remarks a /\ remarks b /\
  h = (a ++ "package " ++ pkg ++ String (chr 10) b ++ "var mappings = ")%string.

Ltac not_in := let I := fresh in intros I; cbn in I; repeat (destruct I as [I|I]; [discriminate|]); destruct I.
Lemma nba_head : head_of "nba" (t_head nba_target).
Proof.
  exists newline, (newline ++ "// This file is generated. Best not to modify it, as it will likely be overwritten." ++ newline ++ newline)%string.
  split; [apply R_empty, R_end|]. split; [|reflexivity]. apply R_empty.
  apply (R_comment " This file is generated. Best not to modify it, as it will likely be overwritten." newline); [not_in|apply R_empty, R_end].
Qed.
Lemma so_head : head_of "stackoverflow" (t_head so_target).
Proof.
  exists newline, (newline ++ "// This file is generated. Best not to modify it, as it will likely be overwritten." ++ newline ++ newline)%string.
  split; [apply R_empty, R_end|]. split; [|reflexivity]. apply R_empty.
  apply (R_comment " This file is generated. Best not to modify it, as it will likely be overwritten." newline); [not_in|apply R_empty, R_end].
Qed.
Lemma contractions_head : head_of "contractions" (t_head contractions_target).
Proof.
  exists newline, (newline ++ "// This file is generated. Best not to modify it, as it will likely be overwritten." ++ newline ++ newline ++
    "// maps do not guarantee order, so this will look random" ++ newline)%string.
  split; [apply R_empty, R_end|]. split; [|reflexivity]. apply R_empty.
  apply (R_comment " This file is generated. Best not to modify it, as it will likely be overwritten."
    (newline ++ "// maps do not guarantee order, so this will look random" ++ newline)); [not_in|apply R_empty].
  apply (R_comment " maps do not guarantee order, so this will look random" ""); [not_in|apply R_end].
Qed.
Lemma nba_ok : head_ok nba_target.
Proof. split; [not_in|split; [not_in|]]. intros c [<-|[<-|[]]]; left; reflexivity. Qed.
Lemma so_ok : head_ok so_target.
Proof. split; [not_in|split; [not_in|]]. intros c []. Qed.
Lemma contractions_ok : head_ok contractions_target.
Proof. split; [not_in|split; [not_in|]]. intros c []. Qed.
