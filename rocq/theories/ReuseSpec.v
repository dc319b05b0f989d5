(** * ReuseSpec: vocabulary of C86. *)

From Verif Require Import Base Token Stream Aliasing AliasSpec.

(** The stream of every call was made before; [k] streams are there already. *)
Fixpoint proper (k : nat) (ops : list op) : Prop :=
  match ops with
  | [] => True
  | Change _ :: _ => False
  | Apply _ :: ops' => proper (S k) ops'
  | Call i :: ops' => i < k /\ proper k ops'
  end.

(** The operations on stream number [i] alone. *)
Fixpoint only (i k : nat) (ops : list op) : list op :=
  match ops with
  | [] => []
  | Change _ :: ops' => only i k ops'
  | Apply s :: ops' => if Nat.eqb k i then Apply s :: only i (S k) ops' else only i (S k) ops'
  | Call j :: ops' => if Nat.eqb j i then Call 0 :: only i k ops' else only i k ops'
  end.

(** The results of the calls on it among the results of all. *)
Fixpoint picked (i : nat) (ops : list op) (rs : list result) : list result :=
  match ops, rs with
  | Call j :: ops', r :: rs' => if Nat.eqb j i then r :: picked i ops' rs' else picked i ops' rs'
  | Call _ :: _, [] => []
  | _ :: ops', _ => picked i ops' rs
  | [], _ => []
  end.

Definition number_of_calls (ops : list op) : nat := length (filter (fun o => match o with Call _ => true | _ => false end) ops).

(** Every stream gives the same as without the others. *)
Definition separate (K : maker) (fuel : nat) (m : mem) : Prop :=
  forall ops, proper 0 ops -> forall rs,
  session K fuel m ops = Ret rs <->
  (length rs = number_of_calls ops /\ forall i, session K fuel m (only i 0 ops) = Ret (picked i ops rs)).
