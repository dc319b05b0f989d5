(** * Serve: requests served at the same time, /repo/web/main.go:22-25,37-93.

    net/http serves every request in a goroutine of its own.  What the requests share is the filter stackoverflow.Tags
    (filters/stackoverflow/filter.go:13): the handler's call tokens.Filter(stackoverflow.Tags) (main.go:58) is a call of the
    method Filter of that one synonyms filter, numbered as in Once.v, and the stream it returns reads the fields of the filter
    whenever Next is called, while other requests go on. *)

From Verif Require Import Base Utf8 Unicode Token Stream Tokenizer Queue Trie Synonyms Once.

Section WithUnicode.
Variable U : unicode.

(** One call of Next on the stream of a call whose local err is [e] (synonyms/filter.go:118-123,139-195); [h k] is the shared memory
    at the [k]-th call of Next. *)
Definition live_next (e : option error) (h : nat -> state) (fuel : nat) (x : nat * synst) : outcome (result * (nat * synst)) :=
  let '(k, st) := x in
  do (r, st') <- syn_closure U e (mkBuilt (trie_ (h k)) (maxWords_ (h k))) fuel st;
  Ret (r, (S k, st')).

(** synonyms/filter.go:101-126 *)
Definition LiveFilter (e : option error) (h : nat -> state) : Filter := fun s =>
  NewTokenStream (live_next e h) (0, mkSyn s (q_new []) (q_new [])).
End WithUnicode.
