(** * Property theorems C83: several streams over one source *)

From Verif Require AliasSpec.
From Verif Require Import Base Token Stream StreamSpec Sources Shared SharedSpec PropSharedLemmas.
Local Open Scope string_scope.
Local Open Scope list_scope.

(** Streams made by Where, Words or Lemmas from one source and from each other; the caller calls Next on them in any order.
    Every call takes from the source what the calls before have left, up to the first token that passes the predicates of
    its stream, and returns that.  So no token is delivered twice, to whichever stream, the tokens are delivered in the
    order of the source, and what one call skipped is lost to the others. *)
Theorem C83_forward_only :
  forall (subs : list ((token -> bool) * nat)) (h : heap) (s : TokenStream) (l : list token) (is : list nat),
  over h s subs -> Forall (fun i => i <= length subs) is -> Yields s l ->
  exists rs taken rest s' h', l = taken ++ rest /\ Serves subs s is rs taken s' /\ over h' s' subs /\ Yields s' rest /\
    Returns (fun fuel => calls fuel is h) (rs, h') /\ sub_of (delivered rs) taken.
Proof. exact C83_lemma. Qed.
Print Assumptions C83_forward_only.

(** The same for a source that fails or never ends, as far as the calls return. *)
Theorem C83_any_source :
  forall (subs : list ((token -> bool) * nat)) (h : heap) (s : TokenStream) (is : list nat) (rs : list result)
    (taken : list token) (s' : TokenStream),
  over h s subs -> Forall (fun i => i <= length subs) is -> Serves subs s is rs taken s' ->
  exists h', over h' s' subs /\ Returns (fun fuel => calls fuel is h) (rs, h').
Proof. exact C83_any_source_lemma. Qed.
Print Assumptions C83_any_source.

(** A stream over a source that nobody else uses is the one of the other theorems. *)
Theorem C83_alone :
  forall (p : token -> bool) (fuel n : nat) (s : TokenStream), 2 <= fuel ->
  (do (rs, _) <- calls fuel (repeat 1 n) [Source s; Sub p 0]; Ret rs) = AliasSpec.calls fuel n (Where p s).
Proof. exact C83_alone_lemma. Qed.
Print Assumptions C83_alone.

(** Words, and lemmas among those, over one source; calls on the words, the lemmas, the source, the words and the lemmas. *)
Example C83_example :
  let js := mkToken "js" false false true in
  let subs := [(is_word, 0); (tlemma, 1)] in
  let s := source [tok "a"; tok " "; tok "b"; js; tok " "; tok "c"] None in
  over [Source s; Sub is_word 0; Sub tlemma 1] s subs /\ Yields s [tok "a"; tok " "; tok "b"; js; tok " "; tok "c"] /\
  (do (rs, _) <- calls 9 [1; 2; 0; 1; 2] [Source s; Sub is_word 0; Sub tlemma 1]; Ret rs) =
    Ret [(Some (tok "a"), None); (Some js, None); (Some (tok " "), None); (Some (tok "c"), None); (None, None)].
Proof.
  split; [split; [reflexivity|]; intros [|[|[|]]] p up E; try discriminate; injection E as <- <-; repeat constructor|].
  split; [apply source_yields|vm_compute; reflexivity].
Qed.
