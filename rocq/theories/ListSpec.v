(** * ListSpec: small list notions used in property statements. *)

From Verif Require Import Base Token Stream StreamSpec.

(** [Subseq a b]: [a] is obtained from [b] by leaving out elements. *)
Inductive Subseq {A} : list A -> list A -> Prop :=
| Sub_nil : Subseq [] []
| Sub_keep x a b : Subseq a b -> Subseq (x :: a) (x :: b)
| Sub_drop x a b : Subseq a b -> Subseq a (x :: b).

(** The value of [t] does not occur in [l]. *)
Definition Fresh (t : token) (l : list token) : Prop := ~ In (tvalue t) (map tvalue l).

(** What io.Writer promises: [acc] is the text accepted so far, [log] the writes made so far. *)
Definition good_writer (w : writer) (acc : wstate w -> string) (log : wstate w -> list string) : Prop :=
  forall ws v n err ws', wwrite w ws v = ((n, err), ws') ->
    n <= String.length v /\ (err = None -> n = String.length v) /\
    acc ws' = (acc ws ++ substring 0 n v)%string /\ log ws' = log ws ++ [v].

(** Writing [vs] in this order until a write reports an error: the sum of the reported numbers, the error, the state afterwards. *)
Inductive writes (w : writer) : wstate w -> list string -> nat -> option error -> wstate w -> Prop :=
| Writes_done ws : writes w ws [] 0 None ws
| Writes_error ws v vs n e ws' : wwrite w ws v = ((n, Some e), ws') -> writes w ws (v :: vs) n (Some e) ws'
| Writes_more ws v vs n ws1 n' r ws' : wwrite w ws v = ((n, None), ws1) -> writes w ws1 vs n' r ws' ->
    writes w ws (v :: vs) (n + n') r ws'.

(** Calls a user can make on a stream. *)
Inductive Reachable (s0 : TokenStream) : TokenStream -> Prop :=
| Reach_start : Reachable s0 s0
| Reach_next s fuel r s' : Reachable s0 s -> Next fuel s = Ret (r, s') -> Reachable s0 s'
| Reach_scan s fuel b s' : Reachable s0 s -> Scan fuel s = Ret (b, s') -> Reachable s0 s'.
