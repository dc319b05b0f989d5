(** * Queue: model of /repo/tokenqueue/queue.go at the level of lists.

    A [*TokenQueue] is the list of its tokens.  That the slice manipulation of queue.go
    implements exactly these list operations is proved in SliceQueue.v. *)

From Verif Require Import Base Token.

Definition queue := list token.

(** queue.go:13-17 New *)
Definition q_new (ts : list token) : queue := ts.
(** queue.go:30-32 Len *)
Definition q_len (q : queue) : nat := length q.
(** queue.go:25-27 Any *)
Definition q_any (q : queue) : bool := Nat.ltb 0 (q_len q).
(** queue.go:47-53 Drop: [q.Tokens[n:]] panics if n exceeds the length. *)
Definition q_drop (q : queue) (n : nat) : outcome queue :=
  if Nat.leb n (length q) then Ret (skipn n q) else Panic.
(** queue.go:35-39 Pop: [q.Tokens[0]] panics on the empty queue. *)
Definition q_pop (q : queue) : outcome (token * queue) :=
  match q with
  | [] => Panic
  | t :: _ => do q' <- q_drop q 1; Ret (t, q')
  end.
(** queue.go:42-44 Push *)
Definition q_push (q : queue) (ts : list token) : queue := q ++ ts.
(** queue.go:56-58 Clear *)
Definition q_clear (q : queue) : queue := [].
(** queue.go:61-64 PopTo, for distinct queues *)
Definition q_popto (q dst : queue) : outcome (queue * queue) :=
  do (t, q') <- q_pop q; Ret (q', q_push dst [t]).
(** queue.go:67-70 FlushTo, for distinct queues *)
Definition q_flushto (q dst : queue) : queue * queue := (q_clear q, dst ++ q).
