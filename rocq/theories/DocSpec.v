(** * DocSpec: the examples in the documentation (C112). *)

From Verif Require Import Base Utf8 Unicode UnicodeData Token Stream StreamSpec Tokenizer Words Filters Ascii Synonyms ContractionsTable
  FilterSpec SynSpec ChainSpec LineSpec SentenceSpec.
Local Open Scope string_scope.

(** README.md:5, 48, 74-75; filters/stackoverflow/filter.go:10-12. README.md:48 shows only the text read; the result is the one expected from the other examples. *)
Definition documented_tags : list (string * string) :=
  [("react", "reactjs"); ("React.js", "reactjs"); ("React JS", "reactjs"); ("REACTJS", "reactjs");
   ("react js", "reactjs"); ("reactjs", "reactjs"); ("react.js", "reactjs");
   ("Ruby on Rails", "ruby-on-rails"); ("ObjC", "objective-c");
   ("Let’s talk about Ruby on Rails and ASPNET MVC.", "Let’s talk about ruby-on-rails and asp.net-mvc.")].

(** README.md:78; filters/contractions/filter.go:13-16 *)
Definition documented_contractions : list (string * string) :=
  [("Couldn’t", "Could not"); ("don't", "does not"); ("We’ve", "We have"); ("SHE'S", "SHE IS")].

(** README.md:81 *)
Definition documented_folds : list (string * string) := [("café", "cafe")].

(** The filters make [y] of the text [x]; also where [x] is a sentence or clause among others, whatever these are, which are treated as if they stood alone. *)
Definition makes (fs : list Filter) (x y : string) : Prop :=
  exists o, processed go_unicode words_scan fs x o /\ text o = y /\
  forall before p after last, (forall a q, In (a, q) before \/ In (a, q) after -> In q sentence_ends /\ begins_afresh a) -> In p sentence_ends -> begins_afresh last ->
  exists outs o2, Forall2 (fun ap => processed go_unicode words_scan fs (fst ap)) before outs /\ processed go_unicode words_scan fs (joined_sentences after ++ last) o2 /\
    processed go_unicode words_scan fs (joined_sentences before ++ x ++ p ++ " " ++ joined_sentences after ++ last)
      (joined_results before outs ++ o ++ mkToken p true false false :: mkToken " " false true false :: o2)%list.
