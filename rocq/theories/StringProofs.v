(** * StringProofs: lemmas about concatenation of strings, used by all proofs. *)

From Verif Require Import Base.

Lemma sapp_assoc (a b c : string) : ((a ++ b) ++ c = a ++ (b ++ c))%string.
Proof. induction a; simpl; congruence. Qed.

Lemma sapp_nil_r (a : string) : (a ++ "")%string = a.
Proof. induction a; simpl; congruence. Qed.

Lemma sapp_length (a b : string) : String.length (a ++ b) = String.length a + String.length b.
Proof. induction a; simpl; congruence. Qed.

Lemma sapp_inv_head (a b c : string) : (a ++ b = a ++ c)%string -> b = c.
Proof. induction a; simpl; intros H; [auto|]. inversion H. auto. Qed.

Lemma sconcat_app l1 l2 : sconcat (l1 ++ l2) = (sconcat l1 ++ sconcat l2)%string.
Proof. induction l1; simpl; [reflexivity|]. rewrite IHl1, sapp_assoc. reflexivity. Qed.
