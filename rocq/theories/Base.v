(** * Base: outcomes of a Go call, errors, small string helpers.

    Models no single file of /repo; it fixes how Go run-time behaviour is
    represented everywhere else.

    - A Go [string] is a Coq [string], i.e. a finite sequence of bytes.
    - A Go [error] is a [string] (only identity matters); [nil] is [None].
    - A Go call either returns a value, panics, or (loops only) has not finished
      within the given number of loop iterations. *)

From Coq Require Export String Ascii List Bool NArith Arith Lia.
Export ListNotations.
Open Scope list_scope.

(** Outcome of a Go call: [Ret a] returned [a]; [Panic] = run-time panic
    (nil dereference, index out of range); [NoFuel] = a [for] loop had not
    finished after the given number of iterations (used to model divergence:
    a call diverges iff it answers [NoFuel] for every amount of fuel). *)
Inductive outcome (A : Type) : Type :=
| Ret (a : A)
| Panic
| NoFuel.
Arguments Ret {A} a.
Arguments Panic {A}.
Arguments NoFuel {A}.

Definition bind {A B} (o : outcome A) (k : A -> outcome B) : outcome B :=
  match o with Ret a => k a | Panic => Panic | NoFuel => NoFuel end.

Notation "'do' x <- e ; k" := (bind e (fun x => k))
  (at level 200, x pattern, e at level 100, k at level 200, right associativity).

Definition error := string.

(** Byte value of a character, and back. *)
Definition byte_of (c : ascii) : N := N_of_ascii c.
Definition chr (n : N) : ascii := ascii_of_N n.

(** Concatenation of a list of strings. *)
Fixpoint sconcat (l : list string) : string :=
  match l with
  | [] => EmptyString
  | s :: r => (s ++ sconcat r)%string
  end.

(** Go [==] on strings. *)
Definition seqb (a b : string) : bool := String.eqb a b.

(** Membership in a Go [map[string]bool] used as a set. *)
Definition smem (x : string) (l : list string) : bool := existsb (seqb x) l.

(** Look-up in a Go [map[string]V] given as the list of its entries. *)
Fixpoint assoc {V} (k : string) (m : list (string * V)) : option V :=
  match m with
  | [] => None
  | (k', v) :: r => if seqb k k' then Some v else assoc k r
  end.
