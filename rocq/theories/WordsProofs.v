(** * WordsProofs: the example segmenter fulfils the scanner contract. *)

From Verif Require Import Base Utf8 Unicode UnicodeData Token Stream StreamSpec Tokenizer Words StreamProofs Utf8Proofs.

Lemma chunks_fine n : forall s, String.length s <= n ->
  sconcat (map snd (chunks s)) = s /\ forall x, In x (map snd (chunks s)) -> x <> EmptyString.
Proof.
  induction n as [|n IH]; intros s L.
  - destruct s; [|cbn in L; lia]. split; [reflexivity|intros x []].
  - assert (C : forall (rest : string) r b, String.length rest <= n -> b <> EmptyString ->
      sconcat (map snd ((r : N, b) :: chunks rest)) = (b ++ rest)%string /\
      forall x, In x (map snd ((r, b) :: chunks rest)) -> x <> EmptyString).
    { intros rest r b Lr Nb. destruct (IH rest Lr) as [A B]. split.
      - cbn [map sconcat snd]. now rewrite A.
      - intros x [<-|H]; [exact Nb|auto]. }
    destruct s as [|c1 s1]; [split; [reflexivity|intros x []]|].
    cbn [String.length] in L. cbn [chunks].
    assert (One : sconcat (map snd ((RuneError, String c1 EmptyString) :: chunks s1)) = String c1 s1 /\
      forall x, In x (map snd ((RuneError, String c1 EmptyString) :: chunks s1)) -> x <> EmptyString).
    { apply (C s1); [lia|discriminate]. }
    destruct (byte_of c1 <? 128)%N; [apply (C s1); [lia|discriminate]|].
    destruct (in_range 194 223 (byte_of c1)).
    { destruct s1 as [|c2 s2]; [exact One|]. destruct (cont (byte_of c2)); [|exact One].
      apply (C s2 _ (String c1 (String c2 EmptyString))); [cbn in L; lia|discriminate]. }
    destruct (in_range 224 239 (byte_of c1)).
    { destruct s1 as [|c2 [|c3 s3]]; [exact One|exact One|].
      match goal with |- context [if ?b then _ else _] => destruct b end; [|exact One].
      apply (C s3 _ (String c1 (String c2 (String c3 EmptyString)))); [cbn in L; lia|discriminate]. }
    destruct (in_range 240 244 (byte_of c1)); [|exact One].
    destruct s1 as [|c2 [|c3 [|c4 s4]]]; [exact One|exact One|exact One|].
    match goal with |- context [if ?b then _ else _] => destruct b end; [|exact One].
    apply (C s4 _ (String c1 (String c2 (String c3 (String c4 EmptyString))))); [cbn in L; lia|discriminate].
Qed.

Lemma seg_loop_fine l : forall cx cur, cur <> EmptyString -> (forall x, In x (map snd l) -> x <> EmptyString) ->
  sconcat (seg_loop cx cur l) = (cur ++ sconcat (map snd l))%string /\
  forall x, In x (seg_loop cx cur l) -> x <> EmptyString.
Proof.
  induction l as [|[r b] l IH]; intros cx cur Nc NE; cbn [seg_loop map snd sconcat].
  - split; [cbn; now rewrite sapp_nil_r|]. intros x [<-|[]]. exact Nc.
  - destruct (boundary cx r l).
    + destruct (IH (advance cx r) b) as [A B]; [apply NE; now left|intros; apply NE; now right|].
      split; [cbn [sconcat]; now rewrite A|]. intros x [<-|H]; auto.
    + destruct (IH (advance cx r) (cur ++ b)%string) as [A B]; [|intros; apply NE; now right|].
      * destruct cur; [congruence|discriminate].
      * split; [now rewrite A, sapp_assoc|auto].
Qed.

Lemma word_segments_ok : seg_ok word_segments.
Proof.
  intros s. destruct (chunks_fine _ s (le_n _)) as [A B]. unfold word_segments.
  destruct (chunks s) as [|[r b] rest]; [cbn in A; subst; split; [reflexivity|intros x []]|].
  destruct (seg_loop_fine rest (advance (mkCtx WOther WOther WOther false) r) b) as [C D].
  - apply B. now left.
  - intros; apply B; now right.
  - split; [rewrite C; exact A|exact D].
Qed.

Lemma scan_of_ok seg : seg_ok seg -> scanner_ok (scan_of seg).
Proof.
  intros H. constructor; cbn.
  - intros r x. apply H.
  - intros r. exists EmptyString. rewrite sapp_nil_r. symmetry. apply H.
  - intros r _. apply H.
  - intros r e ->. discriminate.
Qed.

Lemma words_scan_ok : scanner_ok words_scan.
Proof. apply scan_of_ok, word_segments_ok. Qed.
