(** * PropRenderLemmas: what a file declares is determined; errors of writing it, for C66. *)

From Verif Require Import Base Utf8 Unicode UnicodeData Words Ascii ContractionsGen ContractionsTable Generators Render RenderSpec NbaTable SoTable StreamProofs Utf8Proofs WordsProofs TokenProofs RenderProofs.
Local Open Scope N_scope.

(** ** Reading a declaration *)

Lemma app_len (a a' x x' : string) : String.length a = String.length a' -> (a ++ x)%string = (a' ++ x')%string -> a = a' /\ x = x'.
Proof.
  revert a'. induction a as [|c a IH]; intros [|c' a'] L E; try discriminate; [auto|]. cbn in L, E. injection E as -> E. injection L as L.
  destruct (IH a' L E) as [-> ->]. auto.
Qed.

Lemma digits_fun base acc s n n' : digits base acc s n -> digits base acc s n' -> n = n'.
Proof.
  intros D. revert n'. induction D as [|acc c d s n V L D IH]; intros n' D'; inversion D'; subst; [reflexivity|]. apply IH. congruence.
Qed.

Lemma enc_prefix r r' x x' : valid_rune r = true -> valid_rune r' = true -> (encode_rune r ++ x)%string = (encode_rune r' ++ x')%string -> r = r' /\ x = x'.
Proof.
  intros V V' E. rewrite !encode_rune_valid in E by assumption. pose proof (f_equal runes E) as F. rewrite !runes_enc in F by assumption.
  injection F as -> _. split; [reflexivity|]. eapply app_len; [|exact E]. reflexivity.
Qed.

Lemma simple_fun c n n' : In (c, n) simple_escapes -> In (c, n') simple_escapes -> n = n'.
Proof.
  intros I J. cbn in I, J.
  repeat (destruct I as [I|I]; [injection I as <- <-; repeat (destruct J as [J|J]; [first [discriminate J|congruence]|]); destruct J|]). destruct I.
Qed.
Lemma simple_head c n : In (c, n) simple_escapes -> c <> "x"%char /\ c <> "u"%char /\ c <> "U"%char /\ forall d, digit_value c = Some d -> 8 <= d.
Proof.
  intros I. cbn in I.
  repeat (destruct I as [I|I]; [injection I as <- <-; repeat split; try discriminate; intros d D; vm_compute in D; try discriminate D; injection D as <-; lia|]). destruct I.
Qed.

Lemma octal_head ds n acc k : digits 8 acc ds n -> String.length ds = S k -> exists c ds' d, ds = String c ds' /\ digit_value c = Some d /\ d < 8.
Proof. intros D L. destruct D; [discriminate|]. eauto 8. Qed.

Lemma literal_first q v t : literal q v -> forall x, (q ++ String (chr 34) t)%string = String (chr 34) x -> q = ""%string.
Proof.
  intros L x E. destruct L; cbn [append] in E; try reflexivity; try discriminate.
  exfalso. rewrite sapp_assoc in E. destruct (rune_prefix r 34 _ _ H ltac:(lia) E) as [-> _]. apply H0. cbn. auto.
Qed.

Lemma literal_unique q v : literal q v -> forall q' v' t t', literal q' v' ->
  (q ++ String (chr 34) t)%string = (q' ++ String (chr 34) t')%string -> v = v' /\ t = t'.
Proof.
  assert (BS : forall r x y, valid_rune r = true -> ~ In r [0; 10; 34; 92; 65279] -> ((encode_rune r ++ x) = String (chr 92) y)%string -> False).
  { intros r x y V N E. destruct (rune_prefix r 92 _ _ V ltac:(lia) E) as [-> _]. apply N. cbn. auto. }
  assert (OX : forall ds n c y x, digits 8 0 ds n -> String.length ds = 3%nat -> (ds ++ x)%string = String c y -> (forall d, digit_value c = Some d -> 8 <= d) -> False).
  { intros ds n c y x D L E H. destruct (octal_head _ _ _ _ D L) as (c' & ds' & d & -> & V & B). cbn in E. injection E as -> _. specialize (H d V). lia. }
  assert (HX : forall d, digit_value "x" = Some d -> 8 <= d) by discriminate.
  assert (HU : forall d, digit_value "u" = Some d -> 8 <= d) by discriminate.
  assert (HV : forall d, digit_value "U" = Some d -> 8 <= d) by discriminate.
  induction 1 as [|r src v V N L IH|c n src v I L IH|ds n src v Ln D L IH|ds n src v Ln D B L IH|ds r src v Ln D V L IH|ds r src v Ln D V L IH];
    intros q' v' t t' L' E.
  - cbn [append] in E. pose proof (literal_first _ _ t' L' t (eq_sym E)) as ->. cbn in E. injection E as <-.
    inversion L' as [|r0 src0 v0 V0 N0 L0 E0| | | | |]; [auto|]. exfalso. destruct (encode_rune r0) eqn:X; [|discriminate].
    rewrite encode_rune_valid in X by exact V0. pose proof (enc_raw_length r0) as Y. rewrite X in Y. cbn in Y. lia.
  - destruct L' as [|r' src' v' V' N' L'|c' n' src' v' I' L'|ds' n' src' v' Ln' D' L'|ds' n' src' v' Ln' D' B' L'|ds' r' src' v' Ln' D' V' L'|ds' r' src' v' Ln' D' V' L'];
      rewrite ?sapp_assoc in E; cbn [append] in E; rewrite ?sapp_assoc in E; try (exfalso; exact (BS _ _ _ V N E)).
    + exfalso. destruct (rune_prefix r 34 _ _ V ltac:(lia) E) as [-> _]. apply N. cbn. auto.
    + destruct (enc_prefix _ _ _ _ V V' E) as [-> E']. destruct (IH _ _ _ _ L' E') as [-> ->]. auto.
  - destruct (simple_head _ _ I) as (A1 & A2 & A3 & A4).
    destruct L' as [|r' src' v' V' N' L'|c' n' src' v' I' L'|ds' n' src' v' Ln' D' L'|ds' n' src' v' Ln' D' B' L'|ds' r' src' v' Ln' D' V' L'|ds' r' src' v' Ln' D' V' L'];
      rewrite ?sapp_assoc in E; cbn [append] in E; rewrite ?sapp_assoc in E; try discriminate; try (exfalso; exact (BS _ _ _ V' N' (eq_sym E))); injection E as E; try congruence.
    + intros. subst c'. rewrite (simple_fun _ _ _ I I'). destruct (IH _ _ _ _ L' H) as [-> ->]. auto.
    + exfalso. eapply OX; [exact D'|exact Ln'|symmetry; exact E|exact A4].
  - destruct L' as [|r' src' v' V' N' L'|c' n' src' v' I' L'|ds' n' src' v' Ln' D' L'|ds' n' src' v' Ln' D' B' L'|ds' r' src' v' Ln' D' V' L'|ds' r' src' v' Ln' D' V' L'];
      rewrite ?sapp_assoc in E; cbn [append] in E; rewrite ?sapp_assoc in E; try discriminate; try (exfalso; exact (BS _ _ _ V' N' (eq_sym E))); injection E as E.
    + destruct (simple_head _ _ I') as (A1 & A2 & A3 & A4). congruence.
    + destruct (app_len ds ds' _ _ ltac:(congruence) E) as [-> E']. rewrite (digits_fun _ _ _ _ _ D D'). destruct (IH _ _ _ _ L' E') as [-> ->]. auto.
    + exfalso. eapply OX; [exact D'|exact Ln'|symmetry; exact E|exact HX].
  - destruct L' as [|r' src' v' V' N' L'|c' n' src' v' I' L'|ds' n' src' v' Ln' D' L'|ds' n' src' v' Ln' D' B' L'|ds' r' src' v' Ln' D' V' L'|ds' r' src' v' Ln' D' V' L'];
      rewrite ?sapp_assoc in E; cbn [append] in E; rewrite ?sapp_assoc in E; try discriminate; try (exfalso; exact (BS _ _ _ V' N' (eq_sym E))); injection E as E.
    + destruct (simple_head _ _ I') as (A1 & A2 & A3 & A4). exfalso. eapply OX; [exact D|exact Ln|exact E|exact A4].
    + exfalso. eapply OX; [exact D|exact Ln|exact E|exact HX].
    + destruct (app_len ds ds' _ _ ltac:(congruence) E) as [-> E']. rewrite (digits_fun _ _ _ _ _ D D'). destruct (IH _ _ _ _ L' E') as [-> ->]. auto.
    + exfalso. eapply OX; [exact D|exact Ln|exact E|exact HU].
    + exfalso. eapply OX; [exact D|exact Ln|exact E|exact HV].
  - destruct L' as [|r' src' v' V' N' L'|c' n' src' v' I' L'|ds' n' src' v' Ln' D' L'|ds' n' src' v' Ln' D' B' L'|ds' r' src' v' Ln' D' V' L'|ds' r' src' v' Ln' D' V' L'];
      rewrite ?sapp_assoc in E; cbn [append] in E; rewrite ?sapp_assoc in E; try discriminate; try (exfalso; exact (BS _ _ _ V' N' (eq_sym E))); injection E as E.
    + destruct (simple_head _ _ I') as (A1 & A2 & A3 & A4). congruence.
    + exfalso. eapply OX; [exact D'|exact Ln'|symmetry; exact E|exact HU].
    + destruct (app_len ds ds' _ _ ltac:(congruence) E) as [-> E']. rewrite (digits_fun _ _ _ _ _ D D'). destruct (IH _ _ _ _ L' E') as [-> ->]. auto.
  - destruct L' as [|r' src' v' V' N' L'|c' n' src' v' I' L'|ds' n' src' v' Ln' D' L'|ds' n' src' v' Ln' D' B' L'|ds' r' src' v' Ln' D' V' L'|ds' r' src' v' Ln' D' V' L'];
      rewrite ?sapp_assoc in E; cbn [append] in E; rewrite ?sapp_assoc in E; try discriminate; try (exfalso; exact (BS _ _ _ V' N' (eq_sym E))); injection E as E.
    + destruct (simple_head _ _ I') as (A1 & A2 & A3 & A4). congruence.
    + exfalso. eapply OX; [exact D'|exact Ln'|symmetry; exact E|exact HV].
    + destruct (app_len ds ds' _ _ ltac:(congruence) E) as [-> E']. rewrite (digits_fun _ _ _ _ _ D D'). destruct (IH _ _ _ _ L' E') as [-> ->]. auto.
Qed.

Lemma free_split c a b x y : ~ In c (la a) -> ~ In c (la b) -> (a ++ String c x)%string = (b ++ String c y)%string -> a = b /\ x = y.
Proof.
  revert b. induction a as [|h a IH]; intros [|h' b] A B E; cbn in E.
  - injection E as ->. auto.
  - injection E as -> _. destruct B. now left.
  - injection E as <- _. destruct A. now left.
  - injection E as -> E. destruct (IH b) as [-> ->]; auto; intros I; [apply A|apply B]; now right.
Qed.
Lemma only_not l s c : only l s -> ~ In (byte_of c) l -> ~ In c (la s).
Proof. intros O N I. exact (N (O c I)). Qed.

Lemma entry_unique w1 k1' k1 a1 b1 v1' v1 x1 w2 k2' k2 a2 b2 v2' v2 x2 :
  white w1 -> literal k1' k1 -> white_in_line a1 -> white b1 -> literal v1' v1 ->
  white w2 -> literal k2' k2 -> white_in_line a2 -> white b2 -> literal v2' v2 ->
  (w1 ++ quoted k1' ++ a1 ++ ":" ++ b1 ++ quoted v1' ++ x1)%string = (w2 ++ quoted k2' ++ a2 ++ ":" ++ b2 ++ quoted v2' ++ x2)%string ->
  k1 = k2 /\ v1 = v2 /\ x1 = x2.
Proof.
  intros W1 K1 A1 B1 V1 W2 K2 A2 B2 V2 E. unfold quoted in E. cbn [append] in E. rewrite ?sapp_assoc in E. cbn [append] in E. rewrite ?sapp_assoc in E. cbn [append] in E.
  apply free_split in E as [_ E]; [|eapply only_not; [eassumption|cbn; intuition discriminate]..].
  apply (literal_unique _ _ K1 _ _ _ _ K2) in E as [-> E].
  apply free_split in E as [_ E]; [|eapply only_not; [eassumption|cbn; intuition discriminate]..].
  apply free_split in E as [_ E]; [|eapply only_not; [eassumption|cbn; intuition discriminate]..].
  apply (literal_unique _ _ V1 _ _ _ _ V2) in E as [-> E]. auto.
Qed.

Lemma no_quote_white w x y : white w -> w = (x ++ String (chr 34) y)%string -> False.
Proof. intros W ->. specialize (W (chr 34)). rewrite la_app in W. cbn in W. destruct W as [W|[W|[W|[W|[]]]]]; try discriminate W. apply in_or_app. right. now left. Qed.
Lemma no_comma_white c c' rest : white_in_line c -> c = (c' ++ "," ++ rest)%string -> False.
Proof. intros W ->. specialize (W ","%char). rewrite la_app in W. cbn in W. destruct W as [W|[W|[W|[]]]]; try discriminate W. apply in_or_app. right. now left. Qed.

Lemma elements_unique s m : elements s m -> forall m', elements s m' -> m = m'.
Proof.
  induction 1 as [w W|w k' k a b v' v c W K A B V C|w k' k a b v' v c rest m W K A B V C R IH]; intros m' L.
  - inversion L as [w0 W0 E0|w0 k0' k0 a0 b0 v0' v0 c0 W0 K0 A0 B0 V0 C0 E0|w0 k0' k0 a0 b0 v0' v0 c0 rest0 m0 W0 K0 A0 B0 V0 C0 R0 E0]; [reflexivity| |];
      exfalso; symmetry in E0; unfold quoted in E0; cbn [append] in E0; exact (no_quote_white _ _ _ W E0).
  - inversion L as [w0 W0 E0|w0 k0' k0 a0 b0 v0' v0 c0 W0 K0 A0 B0 V0 C0 E0|w0 k0' k0 a0 b0 v0' v0 c0 rest0 m0 W0 K0 A0 B0 V0 C0 R0 E0].
    + exfalso. exact (no_quote_white _ w _ W0 eq_refl).
    + destruct (entry_unique _ _ _ _ _ _ _ _ _ _ _ _ _ _ _ _ W0 K0 A0 B0 V0 W K A B V E0) as (-> & -> & _). reflexivity.
    + destruct (entry_unique _ _ _ _ _ _ _ _ _ _ _ _ _ _ _ _ W0 K0 A0 B0 V0 W K A B V E0) as (_ & _ & X). exfalso. exact (no_comma_white _ _ _ C (eq_sym X)).
  - inversion L as [w0 W0 E0|w0 k0' k0 a0 b0 v0' v0 c0 W0 K0 A0 B0 V0 C0 E0|w0 k0' k0 a0 b0 v0' v0 c0 rest0 m0 W0 K0 A0 B0 V0 C0 R0 E0].
    + exfalso. exact (no_quote_white _ w _ W0 eq_refl).
    + destruct (entry_unique _ _ _ _ _ _ _ _ _ _ _ _ _ _ _ _ W0 K0 A0 B0 V0 W K A B V E0) as (_ & _ & X). exfalso. exact (no_comma_white _ _ _ C0 X).
    + destruct (entry_unique _ _ _ _ _ _ _ _ _ _ _ _ _ _ _ _ W0 K0 A0 B0 V0 W K A B V E0) as (-> & -> & X).
      cbn [append] in X. apply free_split in X as [_ ->]; [|eapply only_not; [eassumption|cbn; intuition discriminate]..]. f_equal. auto.
Qed.

Lemma remarks_unique a : remarks a -> forall a' h x h' x', remarks a' -> h <> chr 10 -> h <> "/"%char -> h' <> chr 10 -> h' <> "/"%char ->
  (a ++ String h x)%string = (a' ++ String h' x')%string -> String h x = String h' x'.
Proof.
  induction 1 as [|s R IH|line s N R IH]; intros a' h x h' x' R' H1 H2 H1' H2' E; destruct R' as [|s' R'|line' s' N' R'];
    cbn [append] in E; try discriminate E;
    try (exfalso; injection E as E _; first [exact (H1 E)|exact (H2 E)|exact (H1' (eq_sym E))|exact (H2' (eq_sym E))]).
  - exact E.
  - injection E as E. exact (IH _ _ _ _ _ R' H1 H2 H1' H2' E).
  - injection E as E. rewrite !sapp_assoc in E. cbn [append] in E. apply free_split in E as [_ E]; [|assumption..].
    exact (IH _ _ _ _ _ R' H1 H2 H1' H2' E).
Qed.

Lemma app_suffix (a b x : string) : (a ++ x)%string = (b ++ x)%string -> a = b.
Proof.
  intros E. apply (app_len a b x x); [|exact E]. apply (f_equal String.length) in E. revert E.
  assert (A : forall u v, String.length (u ++ v)%string = (String.length u + String.length v)%nat) by (induction u; intros; cbn; auto).
  rewrite !A. lia.
Qed.

Lemma declares_body pkg src m a b body : declares pkg src m -> remarks a -> remarks b ->
  src = (a ++ "package " ++ pkg ++ String (chr 10) b ++ "var mappings = map[string]string{" ++ body ++ "}" ++ String (chr 10) EmptyString)%string ->
  elements body m.
Proof.
  intros (a' & b' & body' & -> & Ra & Rb & El) Ra' Rb' E.
  apply (remarks_unique _ Ra) in E; try assumption; try discriminate. cbn in E. injection E as E.
  assert (E2 : (String (chr 10) b' ++ "var mappings = map[string]string{" ++ body' ++ "}" ++ String (chr 10) EmptyString)%string =
    (String (chr 10) b ++ "var mappings = map[string]string{" ++ body ++ "}" ++ String (chr 10) EmptyString)%string).
  { eapply app_len; [|exact E]. reflexivity. }
  cbn in E2. injection E2 as E2. apply (remarks_unique _ Rb) in E2; try assumption; try discriminate. cbn in E2. injection E2 as E2.
  apply app_suffix in E2. subst body'. exact El.
Qed.

Lemma declares_unique pkg src m m' : declares pkg src m -> declares pkg src m' -> m = m'.
Proof.
  intros D D'. pose proof D as (a & b & body & E & Ra & Rb & El). pose proof (declares_body _ _ _ _ _ _ D' Ra Rb E) as El'.
  exact (elements_unique _ _ El _ El').
Qed.

(** ** No line break in a literal *)

Lemma enc_high r : valid_rune r = true -> 128 <= r -> forall c, In c (la (enc_raw r)) -> 128 <= byte_of c.
Proof.
  intros V H c I. apply valid_rune_spec in V. unfold enc_raw in I. rewrite (proj2 (N.ltb_ge r 128) H) in I.
  pose proof (N.mod_lt r 64 ltac:(lia)) as M1. pose proof (N.mod_lt (r / 64) 64 ltac:(lia)) as M2. pose proof (N.mod_lt (r / 4096) 64 ltac:(lia)) as M3.
  assert (D3 : r / 262144 < 8) by (apply N.div_lt_upper_bound; lia).
  assert (F : forall n, 128 <= n < 256 -> 128 <= byte_of (chr n)) by (intros n Hn; rewrite byte_chr by lia; lia).
  destruct (r <? 2048) eqn:A; [|destruct (r <? 65536) eqn:B]; ranges; cbn [la] in I.
  - assert (D1 : r / 64 < 32) by (apply N.div_lt_upper_bound; lia). destruct I as [<-|[<-|[]]]; apply F; lia.
  - assert (D1 : r / 4096 < 16) by (apply N.div_lt_upper_bound; lia). destruct I as [<-|[<-|[<-|[]]]]; apply F; lia.
  - destruct I as [<-|[<-|[<-|[<-|[]]]]]; apply F; lia.
Qed.

Lemma literal_no_break q v : literal q v -> ~ In (chr 10) (la q).
Proof.
  assert (Dg : forall base acc s n, digits base acc s n -> ~ In (chr 10) (la s)).
  { induction 1 as [|acc c d s n V B D IH]; intros I; [exact I|]. destruct I as [->|I]; [discriminate V|exact (IH I)]. }
  induction 1 as [|r src v V N L IH|c n src v I L IH|ds n src v Ln D L IH|ds n src v Ln D B L IH|ds r src v Ln D V L IH|ds r src v Ln D V L IH]; cbn [la]; intros J.
  - exact J.
  - rewrite la_app in J. apply in_app_or in J as [J|J]; [|exact (IH J)].
    destruct (N.lt_ge_cases r 128) as [S|S].
    + rewrite encode_rune_valid in J by exact V. unfold enc_raw in J. rewrite (proj2 (N.ltb_lt _ _) S) in J. destruct J as [J|[]].
      apply N. apply (f_equal byte_of) in J. rewrite byte_chr in J by lia. cbn in J. subst r. cbn. auto.
    + rewrite encode_rune_valid in J by exact V. pose proof (enc_high r V S _ J) as X. cbn in X. lia.
  - destruct J as [J|[J|J]]; [discriminate| |exact (IH J)]. subst c. cbn in I. repeat (destruct I as [I|I]; [discriminate I|]). destruct I.
  - destruct J as [J|[J|J]]; try discriminate. rewrite la_app in J. apply in_app_or in J as [J|J]; [exact (Dg _ _ _ _ D J)|exact (IH J)].
  - destruct J as [J|J]; try discriminate. rewrite la_app in J. apply in_app_or in J as [J|J]; [exact (Dg _ _ _ _ D J)|exact (IH J)].
  - destruct J as [J|[J|J]]; try discriminate. rewrite la_app in J. apply in_app_or in J as [J|J]; [exact (Dg _ _ _ _ D J)|exact (IH J)].
  - destruct J as [J|[J|J]]; try discriminate. rewrite la_app in J. apply in_app_or in J as [J|J]; [exact (Dg _ _ _ _ D J)|exact (IH J)].
Qed.

(** ** The error returned *)

Lemma C66_errors_lemma : forall isPrint format_Source os_Create file_Write t m,
  let '(formatted, fmtErr) := format_Source (broken_up isPrint t m) in
  let '(content, writeErr) := file_Write formatted in
  write isPrint format_Source os_Create file_Write t m =
    match fmtErr, os_Create with
    | Some e, _ => (Some e, None)
    | None, Some e => (Some e, None)
    | None, None => (writeErr, Some content)
    end.
Proof. intros. unfold write. destruct (format_Source _) as [f [e|]]; destruct (file_Write f) eqn:E; [reflexivity|]. destruct os_Create; reflexivity. Qed.

Lemma identity_formatter_ok : formatter_ok (fun s => (s, None)).
Proof. intros pkg src m D. eauto. Qed.
Lemma ascii_print_ok : print_ok (fun r => (32 <=? r) && (r <? 127)).
Proof. intros r H. apply andb_prop in H as [A B]. apply N.leb_le in A. apply N.ltb_lt in B. lia. Qed.
