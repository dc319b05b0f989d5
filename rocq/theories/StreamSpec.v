(** * StreamSpec: how a user observes a token stream.

    These relations are the vocabulary of the property statements.  They only mention
    the public API ([Next]) and do not depend on any filter.  A call "returns r" when
    it does so for every sufficiently large amount of loop fuel, i.e. when the real
    (unbounded) loop terminates with r. *)

From Verif Require Import Base Utf8 Unicode Token Stream.

(** A fuel-indexed computation terminates with value [a]. *)
Definition Returns {A} (f : nat -> outcome A) (a : A) : Prop :=
  exists n, forall m, n <= m -> f m = Ret a.

(** A fuel-indexed computation panics. *)
Definition Panics {A} (f : nat -> outcome A) : Prop :=
  exists n, forall m, n <= m -> f m = Panic.

(** A fuel-indexed computation never finishes. *)
Definition Diverges {A} (f : nat -> outcome A) : Prop := forall m, f m = NoFuel.

(** One call of Next on [s] returns [r] and leaves the stream as [s']. *)
Definition Nexts (s : TokenStream) (r : result) (s' : TokenStream) : Prop :=
  Returns (fun fuel => Next fuel s) (r, s').

(** Successive calls of Next return the tokens [l], each with a nil error. *)
Inductive Pulls : TokenStream -> list token -> TokenStream -> Prop :=
| Pulls_nil s : Pulls s [] s
| Pulls_cons s t s1 l s2 :
    Nexts s (Some t, None) s1 -> Pulls s1 l s2 -> Pulls s (t :: l) s2.

(** Successive calls of Next return the tokens [l], each with a nil error, and the
    following call returns no token and the error [e] (no error if [e] is None).  (A source
    written by a user might return a token together with an error; that also ends the
    stream for every consumer, with that error.) *)
Inductive Emits : TokenStream -> list token -> option error -> TokenStream -> Prop :=
| Emits_eof s s' : Nexts s (None, None) s' -> Emits s [] None s'
| Emits_err s o e s' : Nexts s (o, Some e) s' -> Emits s [] (Some e) s'
| Emits_cons s t s1 l e s2 :
    Nexts s (Some t, None) s1 -> Emits s1 l e s2 -> Emits s (t :: l) e s2.

(** From now on every call of Next returns (nil, nil). *)
CoInductive Quiet (s : TokenStream) : Prop :=
| Quiet_intro s' : Nexts s (None, None) s' -> Quiet s' -> Quiet s.

(** The stream yields exactly [l], then ends cleanly, and stays ended. *)
Definition Yields (s : TokenStream) (l : list token) : Prop :=
  exists s', Emits s l None s' /\ Quiet s'.

(** The stream yields exactly [l] and then fails with error [e]. *)
Definition Fails (s : TokenStream) (l : list token) (e : error) : Prop :=
  exists s', Emits s l (Some e) s'.

(** The stream never ends: for every n it can deliver n tokens. *)
Definition Endless (s : TokenStream) : Prop :=
  forall n, exists l s', length l = n /\ Pulls s l s'.

(** The text of a token list. *)
Definition text (l : list token) : string := sconcat (map tvalue l).
