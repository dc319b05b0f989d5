(** * Utf8Proofs: decoding and encoding of UTF-8. *)

From Coq Require Import ZArith ZifyBool ZifyN ZifyNat.
From Verif Require Import Base Utf8 StringProofs.
Local Open Scope N_scope.
Ltac Zify.zify_post_hook ::= Z.div_mod_to_equations.

Lemma byte_chr n : n < 256 -> byte_of (chr n) = n.
Proof. apply N_ascii_embedding. Qed.

Lemma chr_byte c : chr (byte_of c) = c.
Proof. apply ascii_N_embedding. Qed.

Lemma byte_lt c : byte_of c < 256.
Proof. apply N_ascii_bounded. Qed.

Lemma in_range_spec lo hi x : in_range lo hi x = true <-> lo <= x <= hi.
Proof. unfold in_range. lia. Qed.

Lemma in_range_false lo hi x : in_range lo hi x = false <-> x < lo \/ hi < x.
Proof. unfold in_range. lia. Qed.

Lemma valid_rune_spec r : valid_rune r = true <-> r <= 55295 \/ 57344 <= r <= 1114111.
Proof. unfold valid_rune, in_range. lia. Qed.

Ltac ranges :=
  repeat match goal with
  | H : (_ && _)%bool = true |- _ => apply andb_true_iff in H; destruct H
  | H : in_range _ _ _ = true |- _ => apply in_range_spec in H
  | H : in_range _ _ _ = false |- _ => apply in_range_false in H
  | H : cont _ = true |- _ => unfold cont in H
  | H : cont _ = false |- _ => unfold cont in H
  | H : valid_rune _ = true |- _ => apply valid_rune_spec in H
  | H : (_ <? _) = true |- _ => apply N.ltb_lt in H
  | H : (_ <? _) = false |- _ => apply N.ltb_ge in H
  end.

Ltac t_ltb b :=
  match goal with |- context [?x <? ?y] =>
    replace (x <? y) with b by (symmetry; first [apply N.ltb_lt|apply N.ltb_ge]; lia) end.
Ltac t_rng b :=
  match goal with |- context [in_range ?l ?h ?x] =>
    replace (in_range l h x) with b
      by (symmetry; first [apply in_range_spec|apply in_range_false]; lia) end.

(** Decoding what was encoded. *)
Lemma runes_enc r s : valid_rune r = true -> runes (enc_raw r ++ s) = r :: runes s.
Proof.
  intros V. ranges. unfold enc_raw.
  destruct (r <? 128) eqn:E1; [|destruct (r <? 2048) eqn:E2; [|destruct (r <? 65536) eqn:E3]]; ranges.
  - cbn [append runes]. rewrite byte_chr by lia. t_ltb true. reflexivity.
  - cbn [append runes]. rewrite !byte_chr by lia. t_ltb false. t_rng true.
    unfold cont. t_rng true. f_equal. unfold rune2. lia.
  - cbn [append runes]. rewrite !byte_chr by lia. t_ltb false. t_rng false. t_rng true.
    replace (in_range (lo3 (224 + r / 4096)) (hi3 (224 + r / 4096)) (128 + (r / 64) mod 64)) with true.
    2:{ symmetry. apply in_range_spec. unfold lo3, hi3.
        destruct (224 + r / 4096 =? 224) eqn:A; destruct (224 + r / 4096 =? 237) eqn:B; lia. }
    unfold cont. t_rng true. cbn [andb]. f_equal. unfold rune3. lia.
  - cbn [append runes]. rewrite !byte_chr by lia. t_ltb false. do 2 t_rng false. t_rng true.
    replace (in_range (lo4 (240 + r / 262144)) (hi4 (240 + r / 262144)) (128 + (r / 4096) mod 64)) with true.
    2:{ symmetry. apply in_range_spec. unfold lo4, hi4.
        destruct (240 + r / 262144 =? 240) eqn:A; destruct (240 + r / 262144 =? 244) eqn:B; lia. }
    unfold cont. do 2 t_rng true. cbn [andb]. f_equal. unfold rune4. lia.
Qed.

Lemma enc1 c : byte_of c < 128 -> enc_raw (byte_of c) = String c "" /\ valid_rune (byte_of c) = true.
Proof.
  intros H. split; [|apply valid_rune_spec; lia].
  unfold enc_raw. t_ltb true. now rewrite chr_byte.
Qed.

Lemma chr_eq n c : n = byte_of c -> chr n = c.
Proof. intros ->. apply chr_byte. Qed.

Lemma enc2 c1 c2 : in_range 194 223 (byte_of c1) = true -> cont (byte_of c2) = true ->
  enc_raw (rune2 (byte_of c1) (byte_of c2)) = String c1 (String c2 "") /\
  valid_rune (rune2 (byte_of c1) (byte_of c2)) = true.
Proof.
  intros H1 H2. ranges. assert (R : 128 <= rune2 (byte_of c1) (byte_of c2) < 2048) by (unfold rune2; lia).
  split; [|apply valid_rune_spec; lia].
  unfold enc_raw. t_ltb false. t_ltb true.
  rewrite (chr_eq _ c1), (chr_eq _ c2); [reflexivity| |]; unfold rune2; lia.
Qed.

Lemma enc3 c1 c2 c3 : in_range 224 239 (byte_of c1) = true ->
  in_range (lo3 (byte_of c1)) (hi3 (byte_of c1)) (byte_of c2) = true -> cont (byte_of c3) = true ->
  enc_raw (rune3 (byte_of c1) (byte_of c2) (byte_of c3)) = String c1 (String c2 (String c3 "")) /\
  valid_rune (rune3 (byte_of c1) (byte_of c2) (byte_of c3)) = true.
Proof.
  intros H1 H2 H3. ranges. unfold lo3, hi3 in H2.
  assert (B : 128 <= byte_of c2 <= 191).
  { destruct (byte_of c1 =? 224); destruct (byte_of c1 =? 237); lia. }
  assert (R : 2048 <= rune3 (byte_of c1) (byte_of c2) (byte_of c3) < 65536 /\
              valid_rune (rune3 (byte_of c1) (byte_of c2) (byte_of c3)) = true).
  { rewrite valid_rune_spec. unfold rune3.
    destruct (byte_of c1 =? 224) eqn:A1; destruct (byte_of c1 =? 237) eqn:A2; lia. }
  split; [|apply R]. destruct R as [R _].
  unfold enc_raw. do 2 t_ltb false. t_ltb true.
  rewrite (chr_eq _ c1), (chr_eq _ c2), (chr_eq _ c3); [reflexivity| | |]; unfold rune3; lia.
Qed.

Lemma enc4 c1 c2 c3 c4 : in_range 240 244 (byte_of c1) = true ->
  in_range (lo4 (byte_of c1)) (hi4 (byte_of c1)) (byte_of c2) = true ->
  cont (byte_of c3) = true -> cont (byte_of c4) = true ->
  enc_raw (rune4 (byte_of c1) (byte_of c2) (byte_of c3) (byte_of c4)) =
    String c1 (String c2 (String c3 (String c4 ""))) /\
  valid_rune (rune4 (byte_of c1) (byte_of c2) (byte_of c3) (byte_of c4)) = true.
Proof.
  intros H1 H2 H3 H4. ranges. unfold lo4, hi4 in H2.
  assert (B : 128 <= byte_of c2 <= 191).
  { destruct (byte_of c1 =? 240); destruct (byte_of c1 =? 244); lia. }
  assert (R : 65536 <= rune4 (byte_of c1) (byte_of c2) (byte_of c3) (byte_of c4) /\
              valid_rune (rune4 (byte_of c1) (byte_of c2) (byte_of c3) (byte_of c4)) = true).
  { rewrite valid_rune_spec. unfold rune4.
    destruct (byte_of c1 =? 240) eqn:A1; destruct (byte_of c1 =? 244) eqn:A2; lia. }
  split; [|apply R]. destruct R as [R _].
  unfold enc_raw. do 3 t_ltb false.
  rewrite (chr_eq _ c1), (chr_eq _ c2), (chr_eq _ c3), (chr_eq _ c4); [reflexivity| | | |];
    unfold rune4; lia.
Qed.

(** Decoding a non-empty string: either it starts with an encoded scalar value, or its first
    byte is invalid. *)
Inductive decode_view : string -> Prop :=
| DV_ok r s : valid_rune r = true -> runes (enc_raw r ++ s) = r :: runes s ->
    valid_utf8 (enc_raw r ++ s) = valid_utf8 s -> decode_view (enc_raw r ++ s)
| DV_bad c s : runes (String c s) = RuneError :: runes s -> valid_utf8 (String c s) = false ->
    (128 <= byte_of c) -> decode_view (String c s).

(** One step of decoding. *)
Lemma runes_cons c1 s1 : runes (String c1 s1) =
  (let b1 := byte_of c1 in
    if b1 <? 128 then b1 :: runes s1
    else if in_range 194 223 b1 then
      match s1 with
      | String c2 s2 =>
        if cont (byte_of c2) then rune2 b1 (byte_of c2) :: runes s2
        else RuneError :: runes s1
      | EmptyString => RuneError :: runes s1
      end
    else if in_range 224 239 b1 then
      match s1 with
      | String c2 (String c3 s3) =>
        if in_range (lo3 b1) (hi3 b1) (byte_of c2) && cont (byte_of c3)
        then rune3 b1 (byte_of c2) (byte_of c3) :: runes s3
        else RuneError :: runes s1
      | _ => RuneError :: runes s1
      end
    else if in_range 240 244 b1 then
      match s1 with
      | String c2 (String c3 (String c4 s4)) =>
        if in_range (lo4 b1) (hi4 b1) (byte_of c2) && cont (byte_of c3) && cont (byte_of c4)
        then rune4 b1 (byte_of c2) (byte_of c3) (byte_of c4) :: runes s4
        else RuneError :: runes s1
      | _ => RuneError :: runes s1
      end
    else RuneError :: runes s1).
Proof. reflexivity. Qed.

Lemma valid_cons c1 s1 : valid_utf8 (String c1 s1) =
  (let b1 := byte_of c1 in
    if b1 <? 128 then valid_utf8 s1
    else if in_range 194 223 b1 then
      match s1 with
      | String c2 s2 => cont (byte_of c2) && valid_utf8 s2
      | EmptyString => false
      end
    else if in_range 224 239 b1 then
      match s1 with
      | String c2 (String c3 s3) =>
        in_range (lo3 b1) (hi3 b1) (byte_of c2) && cont (byte_of c3) && valid_utf8 s3
      | _ => false
      end
    else if in_range 240 244 b1 then
      match s1 with
      | String c2 (String c3 (String c4 s4)) =>
        in_range (lo4 b1) (hi4 b1) (byte_of c2) && cont (byte_of c3) && cont (byte_of c4)
          && valid_utf8 s4
      | _ => false
      end
    else false).
Proof. reflexivity. Qed.

Lemma decode_cases c s : decode_view (String c s).
Proof.
  assert (OK : forall r s', valid_rune r = true -> String c s = (enc_raw r ++ s')%string ->
     valid_utf8 (String c s) = valid_utf8 s' -> decode_view (String c s)).
  { intros r s' V E VU. rewrite E in *. apply DV_ok; auto using runes_enc. }
  assert (BAD : (byte_of c <? 128) = false -> runes (String c s) = RuneError :: runes s ->
     valid_utf8 (String c s) = false -> decode_view (String c s)).
  { intros B R VU. apply DV_bad; auto. now apply N.ltb_ge in B. }
  destruct (byte_of c <? 128) eqn:E1.
  { ranges. destruct (enc1 c E1) as [A B]. eapply (OK _ s B); [rewrite A; reflexivity|].
    rewrite (valid_cons c). cbv zeta iota. t_ltb true. reflexivity. }
  destruct (in_range 194 223 (byte_of c)) eqn:E2.
  { destruct s as [|c2 s2].
    - apply BAD; [reflexivity|rewrite (runes_cons c)|rewrite (valid_cons c)]; cbv zeta iota; rewrite ?E1, ?E2; rewrite ?andb_false_r; reflexivity.
    - destruct (cont (byte_of c2)) eqn:C2.
      + destruct (enc2 c c2 E2 C2) as [A B]. eapply (OK _ s2 B); [rewrite A; reflexivity|].
        rewrite (valid_cons c). cbv zeta iota. rewrite E1, E2, C2. reflexivity.
      + apply BAD; [reflexivity|rewrite (runes_cons c)|rewrite (valid_cons c)]; cbv zeta iota; rewrite ?E1, ?E2, ?C2; rewrite ?andb_false_r; reflexivity. }
  destruct (in_range 224 239 (byte_of c)) eqn:E3.
  { destruct s as [|c2 [|c3 s3]];
      try (apply BAD; [reflexivity|rewrite (runes_cons c)|rewrite (valid_cons c)]; cbv zeta iota; rewrite ?E1, ?E2, ?E3; rewrite ?andb_false_r; reflexivity).
    destruct (in_range (lo3 (byte_of c)) (hi3 (byte_of c)) (byte_of c2)) eqn:C2;
      destruct (cont (byte_of c3)) eqn:C3;
      try (apply BAD; [reflexivity|rewrite (runes_cons c)|rewrite (valid_cons c)]; cbv zeta iota; rewrite ?E1, ?E2, ?E3, ?C2, ?C3; rewrite ?andb_false_r; reflexivity).
    destruct (enc3 c c2 c3 E3 C2 C3) as [A B]. eapply (OK _ s3 B); [rewrite A; reflexivity|].
    rewrite (valid_cons c). cbv zeta iota. rewrite E1, E2, E3, C2, C3. reflexivity. }
  destruct (in_range 240 244 (byte_of c)) eqn:E4.
  { destruct s as [|c2 [|c3 [|c4 s4]]];
      try (apply BAD; [reflexivity|rewrite (runes_cons c)|rewrite (valid_cons c)]; cbv zeta iota; rewrite ?E1, ?E2, ?E3, ?E4; rewrite ?andb_false_r; reflexivity).
    destruct (in_range (lo4 (byte_of c)) (hi4 (byte_of c)) (byte_of c2)) eqn:C2;
      destruct (cont (byte_of c3)) eqn:C3; destruct (cont (byte_of c4)) eqn:C4;
      try (apply BAD; [reflexivity|rewrite (runes_cons c)|rewrite (valid_cons c)]; cbv zeta iota; rewrite ?E1, ?E2, ?E3, ?E4, ?C2, ?C3, ?C4; rewrite ?andb_false_r; reflexivity).
    destruct (enc4 c c2 c3 c4 E4 C2 C3 C4) as [A B]. eapply (OK _ s4 B); [rewrite A; reflexivity|].
    rewrite (valid_cons c). cbv zeta iota. rewrite E1, E2, E3, E4, C2, C3, C4. reflexivity. }
  apply BAD; [reflexivity|rewrite (runes_cons c)|rewrite (valid_cons c)]; cbv zeta iota; rewrite ?E1, ?E2, ?E3, ?E4; rewrite ?andb_false_r; reflexivity.
Qed.

Lemma enc_raw_length r : (1 <= String.length (enc_raw r) <= 4)%nat.
Proof. unfold enc_raw. destruct (r <? 128), (r <? 2048), (r <? 65536); simpl; lia. Qed.

Lemma RuneError_valid : valid_rune RuneError = true.
Proof. reflexivity. Qed.

(** Induction over the decoding. *)
Lemma decode_ind (P : string -> Prop) :
  P ""%string ->
  (forall r s, valid_rune r = true -> runes (enc_raw r ++ s) = r :: runes s ->
     valid_utf8 (enc_raw r ++ s) = valid_utf8 s -> P s -> P (enc_raw r ++ s)%string) ->
  (forall c s, runes (String c s) = RuneError :: runes s -> valid_utf8 (String c s) = false ->
     128 <= byte_of c -> P s -> P (String c s)) ->
  forall s, P s.
Proof.
  intros H0 Hok Hbad s. remember (String.length s) as n eqn:En. revert s En.
  induction n as [n IH] using (well_founded_induction Wf_nat.lt_wf). intros s En.
  destruct s as [|c s]; [exact H0|].
  generalize (eq_refl (String c s)). generalize (decode_cases c s).
  generalize (String c s) at 1 2. intros s0 V E. subst s0.
  inversion V as [r s' Vr R VU Eq|c' s' R VU B Eq].
  - apply Hok; auto. eapply IH; [|reflexivity]. subst n. rewrite <- Eq, sapp_length.
    pose proof (enc_raw_length r). lia.
  - apply Hbad; auto. eapply IH; [|reflexivity]. subst n. simpl. inversion Eq; subst. lia.
Qed.

Lemma runes_valid s : Forall (fun r => valid_rune r = true) (runes s).
Proof.
  induction s as [|r s V R VU IH|c s R VU B IH] using decode_ind.
  - constructor.
  - rewrite R. constructor; auto.
  - rewrite R. constructor; auto using RuneError_valid.
Qed.

Lemma encode_rune_valid r : valid_rune r = true -> encode_rune r = enc_raw r.
Proof. intros V. unfold encode_rune. now rewrite V. Qed.

Lemma encode_runes_length s : (String.length s <= String.length (encode (runes s)))%nat /\
  (valid_utf8 s = false -> String.length s < String.length (encode (runes s)))%nat.
Proof.
  induction s as [|r s V R VU IH|c s R VU B IH] using decode_ind.
  - split; [auto|discriminate].
  - rewrite R, VU. cbn [encode]. rewrite encode_rune_valid, !sapp_length by auto.
    destruct IH as [IH1 IH2]. split; [|intros F; specialize (IH2 F)]; lia.
  - rewrite R. cbn [encode]. rewrite encode_rune_valid, sapp_length by reflexivity.
    change (String.length (enc_raw RuneError)) with 3%nat. cbn [String.length].
    destruct IH as [IH1 _]. split; [|intros _]; lia.
Qed.

Lemma encode_runes s : valid_utf8 s = true -> encode (runes s) = s.
Proof.
  induction s as [|r s V R VU IH|c s R VU B IH] using decode_ind.
  - reflexivity.
  - rewrite R, VU. intros H. cbn [encode]. rewrite encode_rune_valid, IH by auto. reflexivity.
  - rewrite VU. discriminate.
Qed.

Lemma encode_runes_iff s : encode (runes s) = s <-> valid_utf8 s = true.
Proof.
  split; [|apply encode_runes]. intros E. destruct (valid_utf8 s) eqn:V; [reflexivity|].
  destruct (encode_runes_length s) as [_ H]. specialize (H V). rewrite E in H. lia.
Qed.

Definition fix_rune (r : N) : N := if valid_rune r then r else RuneError.

Lemma fix_rune_valid r : valid_rune (fix_rune r) = true.
Proof. unfold fix_rune. destruct (valid_rune r) eqn:E; auto. Qed.

Lemma encode_rune_fix r : encode_rune r = enc_raw (fix_rune r).
Proof. unfold encode_rune, fix_rune. destruct (valid_rune r); reflexivity. Qed.

Lemma runes_encode_app l s : runes (encode l ++ s) = map fix_rune l ++ runes s.
Proof.
  induction l as [|r l IH]; [reflexivity|]. cbn [encode map app].
  rewrite encode_rune_fix, sapp_assoc, runes_enc by apply fix_rune_valid. now rewrite IH.
Qed.

Lemma runes_encode l : runes (encode l) = map fix_rune l.
Proof. rewrite <- (sapp_nil_r (encode l)), runes_encode_app. simpl. apply app_nil_r. Qed.

Lemma valid_utf8_enc r s : valid_rune r = true -> valid_utf8 (enc_raw r ++ s) = valid_utf8 s.
Proof.
  intros V. assert (A := runes_enc r s V). assert (B := runes_enc r "" V).
  destruct (valid_utf8 (enc_raw r ++ s)) eqn:E; symmetry.
  - apply encode_runes_iff in E. rewrite A in E. cbn [encode] in E.
    rewrite encode_rune_valid in E by auto. apply sapp_inv_head in E. now apply encode_runes_iff.
  - destruct (valid_utf8 s) eqn:F; [|reflexivity]. apply encode_runes_iff in F.
    assert (encode (runes (enc_raw r ++ s)) = (enc_raw r ++ s)%string) as G.
    { rewrite A. cbn [encode]. now rewrite encode_rune_valid, F by auto. }
    apply encode_runes_iff in G. congruence.
Qed.

Lemma valid_utf8_encode l : valid_utf8 (encode l) = true.
Proof.
  induction l as [|r l IH]; [reflexivity|]. cbn [encode]. rewrite encode_rune_fix.
  rewrite valid_utf8_enc by apply fix_rune_valid. exact IH.
Qed.

Lemma valid_utf8_iff s : valid_utf8 s = true <-> exists l, s = encode l.
Proof.
  split.
  - intros V. exists (runes s). symmetry. now apply encode_runes.
  - intros [l ->]. apply valid_utf8_encode.
Qed.

Lemma encode_app l1 l2 : encode (l1 ++ l2) = (encode l1 ++ encode l2)%string.
Proof. induction l1; simpl; [reflexivity|]. now rewrite IHl1, sapp_assoc. Qed.

Lemma runes_nil s : runes s = [] <-> s = ""%string.
Proof.
  split; [|intros ->; reflexivity].
  induction s as [|r s V R VU IH|c s R VU B IH] using decode_ind; auto; rewrite R; discriminate.
Qed.

Lemma runes_ascii_cons c s : byte_of c < 128 -> runes (String c s) = byte_of c :: runes s.
Proof. intros H. cbn [runes]. t_ltb true. reflexivity. Qed.

Lemma is_ascii_runes s : is_ascii_string s = true <-> Forall (fun r => r < 128) (runes s).
Proof.
  split.
  - induction s as [|c s IH]; simpl; intros H; [constructor|]. apply andb_true_iff in H.
    destruct H as [H1 H2]. rewrite H1. apply N.ltb_lt in H1. constructor; auto.
  - induction s as [|r s V R VU IH|c s R VU B IH] using decode_ind; intros H; [reflexivity| |].
    + rewrite R in H. inversion H as [|x y Hx Hy]; subst. unfold enc_raw. t_ltb true.
      cbn [append is_ascii_string]. rewrite byte_chr by lia. t_ltb true. cbn [andb]. auto.
    + rewrite R in H. inversion H as [|x y Hx Hy]; subst. unfold RuneError in Hx. lia.
Qed.

Lemma ascii_valid s : is_ascii_string s = true -> valid_utf8 s = true.
Proof.
  induction s as [|c s IH]; simpl; intros H; [reflexivity|]. apply andb_true_iff in H.
  destruct H as [H1 H2]. rewrite H1. auto.
Qed.

(** A byte string whose first byte does not start an encoded scalar value. *)
Lemma runes_bad c s :
  (forall r s', valid_rune r = true -> String c s <> (enc_raw r ++ s')%string) ->
  runes (String c s) = RuneError :: runes s.
Proof.
  intros H. generalize (eq_refl (String c s)). generalize (decode_cases c s).
  generalize (String c s) at 1 2. intros s0 V E. subst s0.
  inversion V as [r s' Vr R VU Eq|c' s' R VU B Eq].
  - exfalso. eapply H; eauto.
  - inversion Eq; subst. exact R.
Qed.
