(** * SimSpec: streams that cannot be told apart (C89, C90). *)

From Verif Require Import Base Utf8 Unicode Token Stream StreamSpec Tokenizer Filters Ascii Synonyms.

(** Whatever a call of Next on [s1] does (return a token, the end or an error, or panic), a call on [s2] does as well,
    and so on. *)
CoInductive Follows (s1 s2 : TokenStream) : Prop :=
| Follows_intro :
    (forall n r s1', Next n s1 = Ret (r, s1') -> exists s2', Nexts s2 r s2' /\ Follows s1' s2') ->
    (forall n, Next n s1 = Panic -> Panics (fun fuel => Next fuel s2)) ->
    Follows s1 s2.

Definition alike (s1 s2 : TokenStream) : Prop := Follows s1 s2 /\ Follows s2 s1.

(** Two calls have the same outcome. *)
Definition same_outcome {A B C} (view1 : A -> C) (view2 : B -> C) (f : nat -> outcome A) (g : nat -> outcome B) : Prop :=
  (forall c, (exists a, Returns f a /\ view1 a = c) <-> (exists b, Returns g b /\ view2 b = c)) /\ (Panics f <-> Panics g).

(** Every filter of the library, with any arguments. *)
Inductive any_filter (U : unicode) (scan : oracle) : Filter -> Prop :=
| AF_where pred : any_filter U scan (Where pred)
| AF_words : any_filter U scan Words
| AF_lemmas : any_filter U scan Lemmas
| AF_distinct : any_filter U scan Distinct
| AF_stopwords words ic : any_filter U scan (Stopwords U words ic)
| AF_mapper fs : any_filter U scan (Mapper fs)
| AF_fold : any_filter U scan (Fold U)
| AF_stemmer stem : any_filter U scan (Stemmer U stem)
| AF_norm isNormal normalize : any_filter U scan (Norm U isNormal normalize)
| AF_expand table : any_filter U scan (Contractions U scan table)
| AF_sigil sigil legal : any_filter U scan (Sigil U sigil legal)
| AF_handles : any_filter U scan (Handles U)
| AF_hashtags : any_filter U scan (Hashtags U)
| AF_synonyms err b : any_filter U scan (SynFilter U err b).
