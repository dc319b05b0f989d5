(** * Property theorems C89 *)

From Verif Require Import Base Utf8 Unicode UnicodeData Token Stream StreamSpec Tokenizer Words Filters Ascii Synonyms SimSpec PropSimLemmas PropSimLemmas2.
Local Open Scope string_scope.

(** A filter's output depends on nothing but what its source delivers. *)
Theorem C89_filter :
  forall (U : unicode) (scan : oracle) (F : Filter) (s1 s2 : TokenStream),
  any_filter U scan F -> alike s1 s2 -> alike (F s1) (F s2).
Proof. exact C89_lemma. Qed.
Print Assumptions C89_filter.

Theorem C89_filters :
  forall (U : unicode) (scan : oracle) (fs : list Filter), Forall (any_filter U scan) fs ->
  forall s1 s2, alike s1 s2 -> alike (ApplyFilters fs s1) (ApplyFilters fs s2).
Proof. exact C89_chain. Qed.
Print Assumptions C89_filters.

(** So do the results of the methods that read a stream to its end. *)
Theorem C89_methods :
  forall s1 s2 : TokenStream, alike s1 s2 ->
  same_outcome fst fst (fun n => ToSlice n s1) (fun n => ToSlice n s2) /\
  same_outcome fst fst (fun n => StreamString n s1) (fun n => StreamString n s2) /\
  same_outcome fst fst (fun n => Count n s1) (fun n => Count n s2) /\
  forall (w : writer) (ws : wstate w),
    same_outcome (fun a => (fst a, fst (snd a))) (fun a => (fst a, fst (snd a))) (fun n => WriteTo w n ws s1) (fun n => WriteTo w n ws s2).
Proof. exact C89_consumers. Qed.
Print Assumptions C89_methods.

(** Streams that are alike deliver the same tokens and fail alike. *)
Theorem C89_observations :
  forall s1 s2 : TokenStream, alike s1 s2 ->
  (forall l, Yields s1 l <-> Yields s2 l) /\ (forall l e, Fails s1 l e <-> Fails s2 l e).
Proof. exact C89_observe. Qed.
Print Assumptions C89_observations.

(** Every stream of Tokenize through filters is alike itself; filters that keep everything change nothing. *)
Example C89_example_filters U scan (fs : list Filter) r : Forall (any_filter U scan) fs ->
  alike (ApplyFilters fs (Tokenize U scan r)) (ApplyFilters fs (Where (fun _ => true) (Tokenize U scan r))).
Proof. exact (fun A => C89_chain U scan fs A _ _ (where_all U scan r)). Qed.

(** Streams of different tokens are not alike. *)
Example C89_example_different :
  ~ alike (Tokenize go_unicode words_scan (mkReader "a b" None)) (Tokenize go_unicode words_scan (mkReader "b a" None)).
Proof.
  exact (a_is_not_b go_unicode words_scan (mkReader "a b" None) (mkReader "b a" None) "a" "b" [" "; "b"] [" "; "a"] None None
    ltac:(vm_compute; reflexivity) ltac:(vm_compute; reflexivity) ltac:(discriminate) ltac:(discriminate) ltac:(discriminate)).
Qed.
