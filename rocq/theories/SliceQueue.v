(** * SliceQueue: model of /repo/tokenqueue/queue.go at the level of slices and arrays.

    The elements are pointers ([*Token]); they are an arbitrary type [A] with a distinguished nil.
    Slice operations follow the Go specification: index, slice expressions, append, copy.
    When append has to grow, the capacity of the new array is arbitrary: each operation carries the number [extra]
    of spare cells it would get.  Lengths are unbounded (no int overflow, no out of memory). *)

From Coq Require Import ZArith.
From Verif Require Import Base.

Section Slices.
Context {A : Type}.
Variable nil_ : A.

(** Arrays by address. *)
Definition heap := list (list A).
Record slice := mkSlice { s_arr : nat; s_off : nat; s_len : nat; s_cap : nat }.

Fixpoint set_nth {B} (n : nat) (x : B) (l : list B) : list B :=
  match l, n with
  | [], _ => []
  | _ :: l', O => x :: l'
  | y :: l', S n' => y :: set_nth n' x l'
  end.

Definition cells (h : heap) (a : nat) : list A := nth a h [].
(** The elements of a slice. *)
Definition view (h : heap) (s : slice) : list A := firstn (s_len s) (skipn (s_off s) (cells h (s_arr s))).

Definition overwrite (c : list A) (off : nat) (xs : list A) : list A := firstn off c ++ xs ++ skipn (off + length xs) c.
Definition store (h : heap) (a off : nat) (xs : list A) : heap := set_nth a (overwrite (cells h a) off xs) h.

(** [s[n:]], [s[:n]] *)
Definition sl_from (s : slice) (n : Z) : outcome slice :=
  if (n <? 0)%Z || (Z.of_nat (s_len s) <? n)%Z then Panic
  else let k := Z.to_nat n in Ret (mkSlice (s_arr s) (s_off s + k) (s_len s - k) (s_cap s - k)).
Definition sl_to (s : slice) (n : Z) : outcome slice :=
  if (n <? 0)%Z || (Z.of_nat (s_cap s) <? n)%Z then Panic
  else Ret (mkSlice (s_arr s) (s_off s) (Z.to_nat n) (s_cap s)).

(** [copy(dst, src)]; also the number of elements copied. *)
Definition sl_copy (h : heap) (dst src : slice) : heap * nat :=
  let k := Nat.min (s_len dst) (s_len src) in
  (store h (s_arr dst) (s_off dst) (firstn k (view h src)), k).

(** [append(s, xs...)] *)
Definition sl_append (h : heap) (s : slice) (xs : list A) (extra : nat) : heap * slice :=
  let n := s_len s + length xs in
  if Nat.leb n (s_cap s) then (store h (s_arr s) (s_off s + s_len s) xs, mkSlice (s_arr s) (s_off s) n (s_cap s))
  else (h ++ [view h s ++ xs ++ repeat nil_ extra], mkSlice (length h) 0 n (n + extra)).

(** The queues are numbered in order of creation; [queues] holds their Tokens fields. *)
Record mem := mkMem { heap_ : heap; queues : list slice }.
Definition put (m : mem) (i : nat) (h : heap) (s : slice) : mem := mkMem h (set_nth i s (queues m)).

(** A method call on a nil *TokenQueue (an unknown number) panics. *)
Definition queue_at (m : mem) (i : nat) : outcome slice :=
  match nth_error (queues m) i with Some s => Ret s | None => Panic end.

(** queue.go:13-17 New, with listed arguments or none: the variadic parameter is a fresh array, or nil *)
Definition New (m : mem) (xs : list A) : mem :=
  match xs with
  | [] => mkMem (heap_ m) (queues m ++ [mkSlice 0 0 0 0])
  | _ => mkMem (heap_ m ++ [xs]) (queues m ++ [mkSlice (length (heap_ m)) 0 (length xs) (length xs)])
  end.
(** queue.go:13-17 New(s...): the parameter is the slice [s] itself *)
Definition NewSpread (m : mem) (s : slice) : mem := mkMem (heap_ m) (queues m ++ [s]).

(** queue.go:30-32 Len *)
Definition Len (m : mem) (i : nat) : outcome nat := do s <- queue_at m i; Ret (s_len s).
(** queue.go:25-27 Any *)
Definition Any (m : mem) (i : nat) : outcome bool := do n <- Len m i; Ret (Nat.ltb 0 n).
(** queue.go:47-53 Drop; also the number of elements moved *)
Definition Drop (m : mem) (i : nat) (n : Z) : outcome (nat * mem) :=
  do s <- queue_at m i;
  do rest <- sl_from s n;
  let '(h', k) := sl_copy (heap_ m) s rest in
  do s' <- sl_to s (Z.of_nat (s_len s) - n);
  Ret (k, put m i h' s').
(** queue.go:35-39 Pop *)
Definition Pop (m : mem) (i : nat) : outcome (A * nat * mem) :=
  do s <- queue_at m i;
  match view (heap_ m) s with
  | [] => Panic
  | t :: _ => do (k, m') <- Drop m i 1; Ret (t, k, m')
  end.
(** queue.go:42-44 Push *)
Definition Push (m : mem) (i : nat) (xs : list A) (extra : nat) : outcome mem :=
  do s <- queue_at m i;
  let '(h', s') := sl_append (heap_ m) s xs extra in
  Ret (put m i h' s').
(** queue.go:56-58 Clear *)
Definition Clear (m : mem) (i : nat) : outcome mem :=
  do s <- queue_at m i;
  do s' <- sl_to s 0;
  Ret (put m i (heap_ m) s').
(** queue.go:61-64 PopTo *)
Definition PopTo (m : mem) (i dst extra : nat) : outcome mem :=
  do (t, _, m1) <- Pop m i;
  Push m1 dst [t] extra.
(** queue.go:67-70 FlushTo *)
Definition FlushTo (m : mem) (i dst extra : nat) : outcome mem :=
  do d <- queue_at m dst;
  do s <- queue_at m i;
  let '(h', d') := sl_append (heap_ m) d (view (heap_ m) s) extra in
  Clear (put m dst h' d') i.

(** A program using queues. *)
Inductive op :=
| ONew (xs : list A) | OLen (i : nat) | OAny (i : nat) | OPop (i : nat) | ODrop (i : nat) (n : Z)
| OPush (i : nat) (xs : list A) (extra : nat) | OClear (i : nat)
| OPopTo (i dst extra : nat) | OFlushTo (i dst extra : nat).

Inductive answer := Nothing | IsLen (n : nat) | IsAny (b : bool) | IsToken (t : A).

Definition exec (o : op) (m : mem) : outcome (answer * mem) :=
  match o with
  | ONew xs => Ret (Nothing, New m xs)
  | OLen i => do n <- Len m i; Ret (IsLen n, m)
  | OAny i => do b <- Any m i; Ret (IsAny b, m)
  | OPop i => do (t, _, m') <- Pop m i; Ret (IsToken t, m')
  | ODrop i n => do (_, m') <- Drop m i n; Ret (Nothing, m')
  | OPush i xs extra => do m' <- Push m i xs extra; Ret (Nothing, m')
  | OClear i => do m' <- Clear m i; Ret (Nothing, m')
  | OPopTo i dst extra => do m' <- PopTo m i dst extra; Ret (Nothing, m')
  | OFlushTo i dst extra => do m' <- FlushTo m i dst extra; Ret (Nothing, m')
  end.

Fixpoint exec_all (os : list op) (m : mem) : outcome (list answer * mem) :=
  match os with
  | [] => Ret ([], m)
  | o :: os' =>
    do (a, m1) <- exec o m;
    do (as_, m2) <- exec_all os' m1;
    Ret (a :: as_, m2)
  end.

Definition contents (m : mem) : list (list A) := map (view (heap_ m)) (queues m).
End Slices.
Arguments op : clear implicits.
Arguments mem : clear implicits.
Arguments answer : clear implicits.
Arguments heap : clear implicits.
