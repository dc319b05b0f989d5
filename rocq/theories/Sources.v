(** * Sources: simple concrete streams, used in examples and counterexamples. *)

From Verif Require Import Base Utf8 Unicode UnicodeData Token Stream StreamSpec StreamProofs.

(** A source that delivers [l] and then ends with [e] (for ever). *)
Definition source_next (e : option error) (fuel : nat) (l : list token)
  : outcome (result * list token) :=
  match l with
  | [] => Ret ((None, e), [])
  | t :: l' => Ret ((Some t, None), l')
  end.
Definition source (l : list token) (e : option error) : TokenStream :=
  NewTokenStream (source_next e) l.

(** A source that delivers [t] for ever. *)
Definition forever (t : token) : TokenStream :=
  NewTokenStream (fun _ (_ : unit) => Ret ((Some t, None), tt)) tt.

(** Tokens as NewToken makes them, with the concrete Unicode table. *)
Definition tok (s : string) : token :=
  match NewToken go_unicode s false with Some t => t | None => mkToken s false false false end.
Definition lem (s : string) : token :=
  match NewToken go_unicode s true with Some t => t | None => mkToken s false false true end.

Lemma source_emitsx l e : exists o, EmitsX (source_next e) l l e o.
Proof.
  induction l as [|t l (o & IH)].
  - exists []. destruct e; [eapply EX_err|apply EX_eof]; apply Returns_ret.
  - exists o. eapply EX_cons; [|exact IH]. apply Returns_ret.
Qed.

Lemma source_yields l : Yields (source l None) l.
Proof.
  assert (E : EmitsX (source_next None) l l None []).
  { induction l; [apply EX_eof|eapply EX_cons; [|eassumption]]; apply Returns_ret. }
  eapply (Yields_closure _ (fun x => x = [])); [exact E| |reflexivity].
  intros x ->. exists []. split; [apply Returns_ret|reflexivity].
Qed.

Lemma source_fails l e : Fails (source l (Some e)) l e.
Proof. destruct (source_emitsx l (Some e)) as (o & E). eapply Fails_closure, E. Qed.

Lemma forever_endless t : Endless (forever t).
Proof.
  assert (G : forall n, PullsX (fun _ (_ : unit) => Ret ((Some t, None), tt)) tt (repeat t n) tt).
  { induction n; simpl; [constructor|]. eapply PX_cons; [apply Returns_ret|assumption]. }
  intros n. destruct (PullsX_Pulls _ _ _ _ (G n) None None) as (a & b & H).
  exists (repeat t n). eexists. split; [apply repeat_length|exact H].
Qed.

(** A source that delivers [f 0], [f 1], [f 2], ... without end. *)
Definition sequence_next (f : nat -> token) (fuel : nat) (i : nat) : outcome (result * nat) :=
  Ret ((Some (f i), None), S i).
Definition sequence (f : nat -> token) : TokenStream := NewTokenStream (sequence_next f) 0.

Lemma sequence_endless f : Endless (sequence f).
Proof.
  assert (G : forall n i, PullsX (sequence_next f) i (map f (seq i n)) (n + i)).
  { induction n as [|n IH]; intros i; [constructor|]. cbn [seq map].
    replace (S n + i) with (n + S i) by lia. eapply PX_cons; [apply Returns_ret|apply IH]. }
  intros n. destruct (PullsX_Pulls _ _ _ _ (G n 0) None None) as (a & b & H).
  exists (map f (seq 0 n)). eexists. split; [rewrite map_length; apply seq_length|exact H].
Qed.
