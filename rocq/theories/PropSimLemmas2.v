(** * PropSimLemmas2: what alike streams have in common; examples (C89). *)

From Verif Require Import Base Utf8 Unicode Token Stream StreamSpec StreamProofs Tokenizer Filters FilterProofs SimSpec PropSimLemmas.
Local Open Scope string_scope.

Lemma Follows_Nexts s1 s2 r s1' : Follows s1 s2 -> Nexts s1 r s1' -> exists s2', Nexts s2 r s2' /\ Follows s1' s2'.
Proof. intros [H _] [n N]. exact (H n r s1' (N n (le_n _))). Qed.

Lemma Follows_Pulls s1 s2 l s1' : Pulls s1 l s1' -> Follows s1 s2 -> exists s2', Pulls s2 l s2' /\ Follows s1' s2'.
Proof.
  intros P. revert s2. induction P as [s|s t s' l s'' N P IH]; intros s2 F.
  - exists s2. split; [constructor|exact F].
  - destruct (Follows_Nexts _ _ _ _ F N) as (s2' & N2 & F2). destruct (IH _ F2) as (s2'' & P2 & F3). exists s2''. split; [econstructor; eassumption|exact F3].
Qed.
Lemma Follows_Emits s1 s2 l e s1' : Emits s1 l e s1' -> Follows s1 s2 -> exists s2', Emits s2 l e s2' /\ Follows s1' s2'.
Proof.
  intros E. revert s2. induction E as [s s' N|s o e s' N|s t s' l e s'' N E IH]; intros s2 F; destruct (Follows_Nexts _ _ _ _ F N) as (s2' & N2 & F2).
  - exists s2'. split; [constructor; exact N2|exact F2].
  - exists s2'. split; [econstructor; exact N2|exact F2].
  - destruct (IH _ F2) as (s3 & P3 & F3). exists s3. split; [econstructor; eassumption|exact F3].
Qed.
Lemma Follows_Quiet : forall s1 s2, Quiet s1 -> Follows s1 s2 -> Quiet s2.
Proof.
  cofix CH. intros s1 s2 [s1' N Q] F. destruct (Follows_Nexts _ _ _ _ F N) as (s2' & N2 & F2). exact (Quiet_intro s2 s2' N2 (CH _ _ Q F2)).
Qed.

Lemma C89_observe s1 s2 : alike s1 s2 ->
  (forall l, Yields s1 l <-> Yields s2 l) /\ (forall l e, Fails s1 l e <-> Fails s2 l e).
Proof.
  assert (Y : forall s1 s2 l, Follows s1 s2 -> Yields s1 l -> Yields s2 l).
  { intros a b l F (s' & E & Q). destruct (Follows_Emits _ _ _ _ _ E F) as (t' & E' & F'). exists t'. split; [exact E'|]. exact (Follows_Quiet _ _ Q F'). }
  assert (Z : forall s1 s2 l e, Follows s1 s2 -> Fails s1 l e -> Fails s2 l e).
  { intros a b l e F (s' & E). destruct (Follows_Emits _ _ _ _ _ E F) as (t' & E' & F'). exists t'. exact E'. }
  intros [F1 F2]. split; [intros l; split; intros H; [exact (Y _ _ l F1 H)|exact (Y _ _ l F2 H)]|].
  intros l e; split; intros H; [exact (Z _ _ l e F1 H)|exact (Z _ _ l e F2 H)].
Qed.

Section All.
Variable U : unicode.

Definition TW (sc : scanner) (x : unit * TokenStream) : Prop := exists tok err, snd x = closure (tokenizer_next U) tok err sc.

Lemma tokenizer_next_cases sc : exists r sc', (forall n, tokenizer_next U n sc = Ret (r, sc')) /\ (fst r = None \/ snd r = None).
Proof.
  unfold tokenizer_next. destruct (sc_Scan sc) as [[p sc']|].
  - eexists _, sc'. split; [reflexivity|]. cbn. auto.
  - destruct (serr sc); eexists _, _; (split; [reflexivity|]); cbn; auto.
Qed.

Lemma where_next_all sc tok err r sc' : (forall n, tokenizer_next U n sc = Ret (r, sc')) -> (fst r = None \/ snd r = None) ->
  forall n, where_next (stateless (fun _ => true)) (S n) (tt, closure (tokenizer_next U) tok err sc) =
    Ret (r, (tt, closure (tokenizer_next U) (fst r) (snd r) sc')).
Proof.
  intros E H n. unfold where_next. cbn [where_loop]. unfold Next. cbn [ts_next closure]. rewrite E. cbn [bind].
  destruct r as [[t|] [e|]]; cbn [fst snd] in *; try reflexivity. destruct H; discriminate.
Qed.

Lemma TW_Rel sc x : TW sc x -> Rel (ResR TW) (fun n => tokenizer_next U n sc) (fun n => where_next (stateless (fun _ => true)) n x).
Proof.
  intros (tok & err & Ex). destruct x as [[] s]. cbn [snd] in Ex. subst s. destruct (tokenizer_next_cases sc) as (r & sc' & E & H). split.
  - intros n a Ea. rewrite E in Ea. injection Ea as <-. eexists. split; [|exists 1; intros m L; destruct m as [|m]; [inversion L|]; exact (where_next_all sc tok err r sc' E H m)].
    split; [reflexivity|]. exists (fst r), (snd r). reflexivity.
  - intros n Ea. rewrite E in Ea. discriminate.
Qed.
Lemma WT_Rel sc x : TW sc x -> Rel (ResR (fun x sc => TW sc x)) (fun n => where_next (stateless (fun _ => true)) n x) (fun n => tokenizer_next U n sc).
Proof.
  intros (tok & err & Ex). destruct x as [[] s]. cbn [snd] in Ex. subst s. destruct (tokenizer_next_cases sc) as (r & sc' & E & H). split.
  - intros [|n] a Ea; [discriminate|]. rewrite (where_next_all sc tok err r sc' E H n) in Ea. injection Ea as <-. exists (r, sc'). split; [|exists 0; intros m _; apply E].
    split; [reflexivity|]. exists (fst r), (snd r). reflexivity.
  - intros [|n] Ea; [discriminate|]. rewrite (where_next_all sc tok err r sc' E H n) in Ea. discriminate.
Qed.

Lemma where_all scan r : alike (Tokenize U scan r) (Where (fun _ => true) (Tokenize U scan r)).
Proof.
  split.
  - apply (Follows_new _ _ TW); [exact TW_Rel|]. exists None, None. reflexivity.
  - apply (Follows_new _ _ (fun x sc => TW sc x)); [intros x sc; apply WT_Rel|]. exists None, None. reflexivity.
Qed.
End All.

Lemma a_is_not_b U scan r1 r2 a b l1 l2 e1 e2 :
  scan r1 = mkScanner (a :: l1) e1 -> scan r2 = mkScanner (b :: l2) e2 -> a <> EmptyString -> b <> EmptyString -> a <> b ->
  ~ alike (Tokenize U scan r1) (Tokenize U scan r2).
Proof.
  intros E1 E2 Na Nb D [[H _] _].
  assert (X : forall r v l e, scan r = mkScanner (v :: l) e -> v <> EmptyString -> forall n, exists s', Next n (Tokenize U scan r) = Ret ((Some (piece_token U v), None), s')).
  { intros r v l e E N n. eexists. unfold Tokenize, Next. cbn [ts_next closure NewTokenStream]. unfold tokenizer_next, sc_Scan. rewrite E. cbn [pending].
    rewrite piece_token_ok by exact N. reflexivity. }
  destruct (X r1 a l1 e1 E1 Na 0) as [s' Ea]. destruct (H _ _ _ Ea) as (s2' & [n N] & _). specialize (N n (le_n _)).
  destruct (X r2 b l2 e2 E2 Nb n) as [s'' Eb]. unfold Next in *. rewrite Eb in N.
  assert (piece_token U b = piece_token U a) as T by congruence. apply (f_equal tvalue) in T. rewrite !piece_token_value in T. congruence.
Qed.
