(** * Property theorem C29: the generator of the contraction table *)

From Coq Require Import Permutation.
From Verif Require Import Base Utf8 Unicode UnicodeData ContractionsTable ContractionsGen GenProofs.

(** For every order in which the base map is iterated, and every case table that agrees with ASCII on ASCII letters
    and leaves the smart quote (U+2019) alone: no error, no panic, and the result is the shipped table. *)
Theorem C29_generator_makes_the_table :
  forall (U : unicode) (upper : N -> N) (errorf : string -> string -> error),
  (forall r, (r <? 128)%N || (r =? 8217)%N = true -> uToLower U r = lower_ascii r) ->
  (forall r, (r <? 128)%N || (r =? 8217)%N = true -> upper r = upper_ascii r) ->
  forall order, Permutation base_contractions order ->
  exists m, getMappings U upper errorf order = Ret (m, None) /\ Permutation contraction_mappings m.
Proof. exact C29_lemma. Qed.
Print Assumptions C29_generator_makes_the_table.

Example C29_example :
  (forall r, (r <? 128)%N || (r =? 8217)%N = true -> uToLower go_unicode r = lower_ascii r) /\
  match getMappings go_unicode upper_ascii (fun _ _ => "re-added"%string) [("don't", "do not"); ("gonna", "going to")]%string with
  | Ret m => m | _ => ([], None) end =
  ([("don't", "do not"); ("Don't", "Do not"); ("DON'T", "DO NOT"); ("don’t", "do not"); ("Don’t", "Do not"); ("DON’T", "DO NOT");
    ("gonna", "going to"); ("Gonna", "Going to"); ("GONNA", "GOING TO")]%string, None) /\
  match getMappings go_unicode upper_ascii (fun _ _ => "re-added"%string) [("a", "x"); ("A", "y")]%string with
  | Ret (_, e) => e | _ => None end = Some "re-added"%string.
Proof. split; [exact C29_example_tables|]. vm_compute. split; reflexivity. Qed.
