(** * ServeSpec: what happens while a request is served (C102). *)

From Verif Require Import Base Utf8 Unicode Token Stream StreamSpec Tokenizer Synonyms Once.

(** [h] is what the shared memory can be at successive moments from state [s] on. *)
Definition history (U : unicode) (scan : oracle) (s : state) (h : nat -> state) : Prop :=
  runs U scan s (h 0) /\ forall k, runs U scan (h k) (h (S k)).

(** On a server that started with the filter for [c], the call [i] of Filter has returned, with local error [e]; [h] is the memory from then on. *)
Definition being_served (U : unicode) (scan : oracle) (c : config) (i : nat) (e : option error) (h : nat -> state) : Prop :=
  exists s, runs U scan (init c) s /\ calls s i = Made e /\ history U scan s h.
