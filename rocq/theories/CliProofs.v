(** * CliProofs: lemmas about the buffered writer and execute. *)

From Coq Require Import ZArith DecimalString DecimalNat DecimalFacts.
From Verif Require Import Base Utf8 Unicode Token Stream StreamSpec Tokenizer Html Scanner Cli CliSpec StreamProofs TokenProofs FilterProofs ScannerProofs.

Section Bufio.
Variable w : writer.
Variable acc : wstate w -> string.
Hypothesis A : accepts w acc.
Variable size : nat.
Hypothesis S0 : 0 < size.
Variable direct : bool.

Lemma sfirst_sdrop n s : (sfirst n s ++ sdrop n s)%string = s.
Proof. revert s; induction n; intros [|c s]; cbn; try reflexivity. now rewrite IHn. Qed.
Lemma sfirst_len n s : String.length (sfirst n s) = Nat.min n (String.length s).
Proof. revert s; induction n; intros [|c s]; cbn; try reflexivity. now rewrite IHn. Qed.
Lemma substring_sfirst n s : substring 0 n s = sfirst n s.
Proof. revert s; induction n; intros [|c s]; cbn; try reflexivity. now rewrite IHn. Qed.
Lemma sfirst_full n s : String.length s <= n -> sfirst n s = s.
Proof. revert s; induction n; intros [|c s] H; cbn in *; try reflexivity; [lia|]. now rewrite IHn by lia. Qed.

(** The sink answered [e] after taking only a part of [pending]. *)
Definition broke (a0 pending : string) (e : error) (ws' : wstate w) : Prop :=
  refuses w e /\ exists x y, pending = (x ++ y)%string /\ acc ws' = (a0 ++ x)%string.

Lemma Flush_spec (b : bwriter w) : bwerr b = None -> exists e b', Flush w b = (e, b') /\
  ((e = None /\ bbuf b' = EmptyString /\ bwerr b' = None /\ acc (bws b') = (acc (bws b) ++ bbuf b)%string) \/
   (exists e1, e = Some e1 /\ bwerr b' = Some e1 /\ broke (acc (bws b)) (bbuf b) e1 (bws b'))).
Proof.
  destruct b as [bu er ws]. cbn [bwerr bbuf bws]. intros ->. unfold Flush. cbn [bwerr bbuf bws].
  destruct (Nat.eqb_spec (String.length bu) 0) as [E|E].
  - exists None, (mkBW bu None ws). split; [reflexivity|]. left. apply slen_0 in E. subst. cbn. rewrite sapp_nil_r'. auto.
  - destruct (wwrite w ws bu) as [[n err] ws'] eqn:Wr. destruct (A _ _ _ _ _ Wr) as (L & F & Ac). destruct err as [e1|].
    + eexists _, _. split; [reflexivity|]. right. exists e1. cbn [bwerr bws]. split; [reflexivity|]. split; [reflexivity|]. split.
      * exists ws, bu, n, ws'. exact Wr.
      * exists (sfirst n bu), (sdrop n bu). rewrite sfirst_sdrop, <- substring_sfirst. auto.
    + specialize (F eq_refl). subst n. rewrite Nat.ltb_irrefl. eexists _, _. split; [reflexivity|]. left. cbn [bwerr bws bbuf].
      rewrite Ac, substring_sfirst, sfirst_full by lia. auto.
Qed.

Definition fine (b : bwriter w) : Prop := bwerr b = None /\ String.length (bbuf b) <= size.
Definition total (b : bwriter w) : string := (acc (bws b) ++ bbuf b)%string.

Lemma WriteString_spec n : forall b s, 2 * String.length s + (match String.length (bbuf b) with O => 0 | S _ => 1 end) < n -> fine b ->
  exists e b', Returns (fun k => WriteString w size direct k b s) (e, b') /\
  ((e = None /\ fine b' /\ total b' = (total b ++ s)%string) \/
   (exists e1, e = Some e1 /\ broke (acc (bws b)) (bbuf b ++ s)%string e1 (bws b'))).
Proof.
  induction n as [|n IH]; intros b s Hn [Be Bs]; [lia|]. destruct b as [bu er ws]. cbn [bwerr bbuf bws] in *. subst er.
  destruct (Nat.ltb_spec (Available w size (mkBW bu None ws)) (String.length s)) as [H|H]; unfold Available in H; cbn [bbuf] in H.
  - destruct (direct && Nat.eqb (String.length bu) 0)%bool eqn:D.
    + destruct (wwrite w ws s) as [[n1 err] ws'] eqn:Wr. destruct (A _ _ _ _ _ Wr) as (L & F & Ac).
      apply andb_prop in D. destruct D as [D1 D2]. apply Nat.eqb_eq, slen_0 in D2. subst bu.
      destruct err as [e1|].
      * exists (Some e1), (mkBW EmptyString (Some e1) ws'). split.
        -- exists 2. intros [|[|k]] Hk; try lia. cbn [WriteString]. unfold Available. cbn [bbuf bwerr bws]. destruct (Nat.ltb_spec (size - String.length EmptyString) (String.length s)); [|cbn in *; lia].
           rewrite D1. cbn [andb String.length Nat.eqb]. rewrite Wr. cbn [WriteString bwerr]. rewrite andb_false_r. reflexivity.
        -- right. exists e1. split; [reflexivity|]. split; [exists ws, s, n1, ws'; exact Wr|]. exists (sfirst n1 s), (sdrop n1 s).
           rewrite sfirst_sdrop, <- substring_sfirst. auto.
      * specialize (F eq_refl). subst n1. exists None, (mkBW EmptyString None ws'). split.
        -- exists 2. intros [|[|k]] Hk; try lia. cbn [WriteString]. unfold Available. cbn [bbuf bwerr bws]. destruct (Nat.ltb_spec (size - String.length EmptyString) (String.length s)); [|cbn in *; lia].
           rewrite D1. cbn [andb String.length Nat.eqb]. rewrite Wr. cbn [WriteString bwerr].
           replace (sdrop (String.length s) s) with EmptyString by (rewrite <- (sapp_nil_r' s) at 2; symmetry; apply sdrop_app). reflexivity.
        -- left. split; [reflexivity|]. split; [split; [reflexivity|cbn; lia]|]. unfold total. cbn [bws bbuf]. rewrite Ac, substring_sfirst, sfirst_full, !sapp_nil_r' by lia. reflexivity.
    + set (av := size - String.length bu) in *.
      destruct (Flush_spec (mkBW (bu ++ sfirst av s)%string None ws) eq_refl) as (e & b' & Fl & C). cbn [bws bbuf] in C.
      assert (Step : forall k, WriteString w size direct (S k) (mkBW bu None ws) s = WriteString w size direct k b' (sdrop av s)).
      { intros k. cbn [WriteString]. unfold Available at 1. cbn [bbuf bwerr bws]. fold av. destruct (Nat.ltb_spec av (String.length s)); [|lia].
        cbn [andb]. rewrite D. unfold Available. cbn [bbuf]. fold av. rewrite Fl. reflexivity. }
      destruct C as [(-> & Bb & Bn & Ac)|(e1 & -> & Bn & R & x & y & Exy & Ac)].
      * destruct (IH b' (sdrop av s)) as (e & b2 & [N R] & C).
        { rewrite Bb. cbn [String.length]. rewrite sdrop_len. destruct (String.length bu) eqn:Lb; [unfold av in *; lia|]. lia. }
        { split; [exact Bn|]. rewrite Bb. cbn. lia. }
        exists e, b2. split; [exists (S N); intros [|k] Hk; [lia|]; rewrite Step; apply R; lia|].
        destruct C as [(-> & F & T)|(e1 & -> & Rf & x & y & Exy & Ac2)].
        -- left. split; [reflexivity|]. split; [exact F|]. rewrite T. unfold total. cbn [bws bbuf]. rewrite Bb, Ac, !sapp_assoc. cbn [String.append]. rewrite sfirst_sdrop. reflexivity.
        -- right. exists e1. split; [reflexivity|]. split; [exact Rf|]. rewrite Bb in Exy. cbn [String.append] in Exy.
           exists (bu ++ sfirst av s ++ x)%string, y. rewrite Ac2, Ac, !sapp_assoc, <- Exy, sfirst_sdrop. auto.
      * exists (Some e1), b'. split.
        -- exists 2. intros [|[|k]] Hk; try lia. rewrite Step. cbn [WriteString]. rewrite Bn, andb_false_r. reflexivity.
        -- right. exists e1. split; [reflexivity|]. split; [exact R|]. exists x, (y ++ sdrop av s)%string. cbn [bws].
           rewrite Ac, <- sapp_assoc, <- Exy, sapp_assoc, sfirst_sdrop. auto.
  - exists None, (mkBW (bu ++ s)%string None ws). split.
    + exists 1. intros [|k] Hk; [lia|]. cbn [WriteString]. unfold Available. cbn [bbuf bwerr bws]. destruct (Nat.ltb_spec (size - String.length bu) (String.length s)); [lia|]. reflexivity.
    + left. split; [reflexivity|]. split; [split; [reflexivity|cbn [bbuf]; rewrite slen_app; lia]|]. unfold total. cbn [bws bbuf]. rewrite sapp_assoc. reflexivity.
Qed.

Lemma WriteByte_spec b c : fine b -> exists e b', WriteByte w size b c = (e, b') /\
  ((e = None /\ fine b' /\ total b' = (total b ++ String c EmptyString)%string) \/
   (exists e1, e = Some e1 /\ broke (acc (bws b)) (bbuf b) e1 (bws b'))).
Proof.
  intros [Be Bs]. unfold WriteByte, Available. rewrite Be. destruct (Nat.eqb_spec (size - String.length (bbuf b)) 0) as [H|H].
  - destruct (Flush_spec b Be) as (e & b' & -> & [(-> & Bb & Bn & Ac)|(e1 & -> & Bn & R)]).
    + eexists _, _. split; [reflexivity|]. left. split; [reflexivity|]. rewrite Bb. split; [split; [reflexivity|cbn; lia]|].
      unfold total. cbn [bws bbuf]. rewrite Ac. reflexivity.
    + eexists _, _. split; [reflexivity|]. right. exists e1. auto.
  - eexists _, _. split; [reflexivity|]. left. split; [reflexivity|]. split; [split; [reflexivity|cbn [bbuf]; rewrite slen_app; cbn; lia]|].
    unfold total. cbn [bws bbuf]. rewrite sapp_assoc. reflexivity.
Qed.

(** After writing [s] and then more, the part that got through is a beginning. *)
Lemma broke_more b b1 s r e ws' : total b1 = (total b ++ s)%string -> broke (acc (bws b1)) (bbuf b1 ++ r)%string e ws' ->
  (exists z, acc (bws b1) = (acc (bws b) ++ z)%string) -> broke (acc (bws b)) (bbuf b ++ s ++ r)%string e ws'.
Proof.
  unfold total. intros T (R & x & y & E & Ac) (z & Z). split; [exact R|]. exists (z ++ x)%string, y. split; [|rewrite Ac, Z, sapp_assoc; reflexivity].
  rewrite Z, !sapp_assoc in T. apply sapp_inv_head in T. rewrite (sapp_assoc z x y), <- E, <- (sapp_assoc z), T, sapp_assoc. reflexivity.
Qed.

(** What was accepted only grows. *)
Lemma Flush_grows b e b' : Flush w b = (e, b') -> exists z, acc (bws b') = (acc (bws b) ++ z)%string.
Proof.
  unfold Flush. destruct (bwerr b); [intros E; injection E as <- <-; exists EmptyString; now rewrite sapp_nil_r'|].
  destruct (Nat.eqb _ 0); [intros E; injection E as <- <-; exists EmptyString; now rewrite sapp_nil_r'|].
  destruct (wwrite w (bws b) (bbuf b)) as [[n err] ws'] eqn:Wr. destruct (A _ _ _ _ _ Wr) as (_ & _ & Ac).
  intros E. exists (substring 0 n (bbuf b)). rewrite <- Ac.
  destruct err; [injection E as <- <-; reflexivity|]. destruct (Nat.ltb _ _); injection E as <- <-; reflexivity.
Qed.

Lemma WriteString_grows k : forall b s e b', WriteString w size direct k b s = Ret (e, b') -> exists z, acc (bws b') = (acc (bws b) ++ z)%string.
Proof.
  induction k as [|k IH]; intros b s e b' H; cbn [WriteString] in H; [discriminate|].
  destruct (Nat.ltb _ _ && _)%bool.
  - destruct (direct && _)%bool.
    + destruct (wwrite w (bws b) s) as [[n err] ws'] eqn:Wr. destruct (A _ _ _ _ _ Wr) as (_ & _ & Ac).
      destruct (IH _ _ _ _ H) as [z Z]. cbn [bws] in Z. eexists. rewrite Z, Ac, sapp_assoc. reflexivity.
    + destruct (Flush w _) as [e1 b1] eqn:F. destruct (Flush_grows _ _ _ F) as [z1 Z1]. cbn [bws] in Z1.
      destruct (IH _ _ _ _ H) as [z Z]. eexists. rewrite Z, Z1, sapp_assoc. reflexivity.
  - exists EmptyString. rewrite sapp_nil_r'. destruct (bwerr b); injection H as <- <-; reflexivity.
Qed.

Lemma WriteByte_grows b c e b' : WriteByte w size b c = (e, b') -> exists z, acc (bws b') = (acc (bws b) ++ z)%string.
Proof.
  unfold WriteByte. destruct (bwerr b); [intros E; injection E as <- <-; exists EmptyString; now rewrite sapp_nil_r'|].
  destruct (Nat.eqb _ 0).
  - destruct (Flush w b) as [e1 b1] eqn:F. destruct (Flush_grows _ _ _ F) as [z Z]. intros E. exists z. rewrite <- Z.
    destruct e1; injection E as <- <-; reflexivity.
  - intros E. injection E as <- <-. exists EmptyString. now rewrite sapp_nil_r'.
Qed.

Variable lines : bool.

Lemma listing_cons t l : listing lines (t :: l) = (tvalue t ++ (if lines then String newline EmptyString else EmptyString) ++ listing lines l)%string.
Proof. cbn [listing]. destruct lines; reflexivity. Qed.

(** How writing the tokens [l] ends; [e]: how the stream ends. *)
Definition write_end (l : list token) (e : option error) (b : bwriter w) (err : option error) (b' : bwriter w) : Prop :=
  (exists e1, err = Some e1 /\ broke (acc (bws b)) (bbuf b ++ listing lines l)%string e1 (bws b')) \/
  (e = None /\ err = None /\ acc (bws b') = (total b ++ listing lines l)%string) \/
  (exists e0, e = Some e0 /\ err = Some e0 /\ fine b' /\ total b' = (total b ++ listing lines l)%string /\
     exists z, acc (bws b') = (acc (bws b) ++ z)%string).

Lemma write_end_more t l e b b1 err b' :
  total b1 = (total b ++ tvalue t ++ (if lines then String newline EmptyString else EmptyString))%string ->
  (exists z, acc (bws b1) = (acc (bws b) ++ z)%string) ->
  write_end l e b1 err b' -> write_end (t :: l) e b err b'.
Proof.
  intros T G [(e1 & -> & B)|[(-> & -> & Ac)|(e0 & -> & -> & F & Tt & z & Z)]].
  - left. exists e1. split; [reflexivity|]. rewrite listing_cons. rewrite <- (sapp_assoc (tvalue t)). eapply broke_more; eassumption.
  - right; left. split; [reflexivity|]. split; [reflexivity|]. rewrite Ac, T, listing_cons, !sapp_assoc. reflexivity.
  - right; right. exists e0. split; [reflexivity|]. split; [reflexivity|]. split; [exact F|]. split; [rewrite Tt, T, listing_cons, !sapp_assoc; reflexivity|].
    destruct G as [z0 Z0]. eexists. rewrite Z, Z0, sapp_assoc. reflexivity.
Qed.

Lemma write_all_spec s l e s' : Emits s l e s' -> forall b, fine b -> exists err b',
  Returns2 (fun fuel k => write_all w size direct lines fuel k b s) (err, b') /\ write_end l e b err b'.
Proof.
  induction 1 as [s s' N|s o e s' N|s t s1 l e s2 N E IH]; intros b Fb.
  - destruct (Scan_eof _ _ N) as [m Hm]. destruct (Flush_spec b (proj1 Fb)) as (e & b' & Fl & C). exists e, b'. split.
    + eapply (Returns2_step _ _ _ m); [|apply Returns2_const]. intros fuel k Hf. cbn [write_all]. rewrite Hm by lia. cbn. rewrite Fl. reflexivity.
    + unfold write_end. cbn [listing]. rewrite !sapp_nil_r'. destruct C as [(-> & _ & _ & Ac)|(e1 & -> & _ & B)]; [right; left; auto|left; exists e1; auto].
  - destruct (Scan_err _ _ _ _ N) as [m Hm]. exists (Some e), b. split.
    + eapply (Returns2_step _ _ _ m); [|apply Returns2_const]. intros fuel k Hf. cbn [write_all]. rewrite Hm by lia. reflexivity.
    + right; right. exists e. cbn [listing]. rewrite sapp_nil_r'. do 4 (split; [auto|]). exists EmptyString. now rewrite sapp_nil_r'.
  - destruct (Scan_token _ _ _ N) as [m Hm].
    destruct (WriteString_spec _ b (tvalue t) (Nat.lt_succ_diag_r _) Fb) as (e1 & b1 & [k1 R1] & [(-> & F1 & T1)|(e1' & -> & B)]).
    + pose proof (WriteString_grows _ _ _ _ _ (R1 k1 (le_n _))) as G1. destruct lines eqn:Li.
      * destruct (WriteByte_spec b1 newline F1) as (e2 & b2 & W2 & C2). destruct (WriteByte_grows _ _ _ _ W2) as [z2 Z2].
        destruct C2 as [(-> & F2 & T2)|(e2' & -> & B2)].
        -- destruct (IH b2 F2) as (err & b' & R & We). exists err, b'. split.
           ++ eapply (Returns2_step _ _ _ (Nat.max m k1)); [|exact R]. intros fuel k Hf. cbn [write_all]. rewrite Hm by lia. cbn.
              rewrite R1 by lia. cbn. rewrite W2. destruct k; reflexivity.
           ++ eapply write_end_more; [| |exact We]; [rewrite T2, T1, Li, !sapp_assoc; reflexivity|].
              destruct G1 as [z1 Z1]. eexists. rewrite Z2, Z1, sapp_assoc. reflexivity.
        -- exists (Some e2'), b2. split.
           ++ eapply (Returns2_step _ _ _ (Nat.max m k1)); [|apply Returns2_const]. intros fuel k Hf. cbn [write_all]. rewrite Hm by lia. cbn.
              rewrite R1 by lia. cbn. rewrite W2. reflexivity.
           ++ left. exists e2'. split; [reflexivity|]. rewrite listing_cons, Li. eapply broke_more; [exact T1| |exact G1].
              destruct B2 as (Rf & x & y & Exy & Ac). split; [exact Rf|]. eexists x, _. rewrite Exy, Ac, sapp_assoc. split; reflexivity.
      * destruct (IH b1 F1) as (err & b' & R & We). exists err, b'. split.
        -- eapply (Returns2_step _ _ _ (Nat.max m k1)); [|exact R]. intros fuel k Hf. cbn [write_all]. rewrite Hm by lia. cbn.
           rewrite R1 by lia. destruct k; reflexivity.
        -- eapply write_end_more; [| |exact We]; [rewrite T1, Li, sapp_nil_r'; reflexivity|exact G1].
    + exists (Some e1'), b1. split.
      * eapply (Returns2_step _ _ _ (Nat.max m k1)); [|apply Returns2_const]. intros fuel k Hf. cbn [write_all]. rewrite Hm by lia. cbn.
        rewrite R1 by lia. reflexivity.
      * left. exists e1'. split; [reflexivity|]. rewrite listing_cons. destruct B as (Rf & x & y & Exy & Ac). split; [exact Rf|].
        eexists x, _. split; [|exact Ac]. rewrite <- sapp_assoc, Exy, sapp_assoc. reflexivity.
Qed.
End Bufio.

Lemma itoa_decimal n : decimal n (itoa n).
Proof.
  assert (M : Decimal.unorm (Nat.to_uint n) = Nat.to_uint n) by (rewrite <- (Unsigned.to_of (Nat.to_uint n)), Unsigned.of_to; reflexivity).
  exists (Nat.to_uint n). unfold itoa. split; [|split; [apply Unsigned.of_to|exact M]].
  apply NilZero.usu. intros E. rewrite E in M. discriminate.
Qed.

