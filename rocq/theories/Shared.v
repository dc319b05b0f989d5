(** * Shared: several streams over one source, /repo/tokenstream.go:62-92, 153-172.

    In the other files a stream belongs to the one filter that wraps it.  Here streams are objects that refer to each other,
    as the pointer [stream] of [where] does (tokenstream.go:62-65): any number of streams made by Where, Words or Lemmas, from
    the source or from each other, and the caller may call Next on any of them, in any order. *)

From Verif Require Import Base Token Stream.

(** The source, or a [where] with the number of its upstream. *)
Inductive node := Source (s : TokenStream) | Sub (predicate : token -> bool) (up : nat).
Definition heap := list node.

Fixpoint set_node (n : nat) (x : node) (h : heap) : heap :=
  match h, n with
  | [], _ => []
  | _ :: h', O => x :: h'
  | y :: h', S n' => y :: set_node n' x h'
  end.

(** tokenstream.go:76-92 (where).next; [call]: w.stream.Next *)
Fixpoint sub_loop (call : heap -> outcome (result * heap)) (predicate : token -> bool) (k : nat) (h : heap)
  : outcome (result * heap) :=
  match k with
  | O => NoFuel
  | S k' =>
    do (r, h') <- call h;
    match r with
    | (_, Some e) => Ret ((None, Some e), h')
    | (None, None) => Ret ((None, None), h')
    | (Some t, None) => if predicate t then Ret ((Some t, None), h') else sub_loop call predicate k' h'
    end
  end.

(** Next on stream number [i]; [d] bounds the depth of the calls. *)
Fixpoint call (fuel d : nat) (i : nat) (h : heap) : outcome (result * heap) :=
  match d with
  | O => NoFuel
  | S d' =>
    match nth_error h i with
    | None => Panic
    | Some (Source s) => do (r, s') <- Next fuel s; Ret (r, set_node i (Source s') h)
    | Some (Sub predicate up) => sub_loop (call fuel d' up) predicate fuel h
    end
  end.

(** The results of calls of Next on the streams [is]. *)
Fixpoint calls (fuel : nat) (is : list nat) (h : heap) : outcome (list result * heap) :=
  match is with
  | [] => Ret ([], h)
  | i :: is' =>
    do (r, h1) <- call fuel fuel i h;
    do (rs, h2) <- calls fuel is' h1;
    Ret (r :: rs, h2)
  end.
