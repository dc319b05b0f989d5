(** * Property theorems C110: how many tokens a filter puts out *)

From Coq Require Import ZArith.
From Verif Require Import Base Utf8 Unicode UnicodeData Token Stream StreamSpec Tokenizer Words Filters Ascii Synonyms ContractionsTable
  FilterSpec SynSpec ChainSpec TallySpec Cli CliSpec PipeSpec Sources WordsProofs PropSynLemmas2 PropPipeLemmas PropNumberLemmas.

(** Folding, stemming, normalizing and mapping put out as many as they read. *)
Theorem C110_changing : forall U F, changing_filter U F -> as_many F.
Proof. exact C110_changing_lemma. Qed.
Print Assumptions C110_changing.

(** No filter but Contractions puts out more. *)
Theorem C110_no_more : forall (U : unicode) (scan : oracle), scanner_ok scan -> uIsSpace U 44 = false ->
  forall F, no_expansion U scan F -> at_most 1 F.
Proof. exact C110_others_lemma. Qed.
Print Assumptions C110_no_more.

(** Contractions put out up to three for one that they read, and never fewer than they read. *)
Theorem C110_Expand : at_most 3 (Contractions go_unicode words_scan contraction_mappings) /\
  (forall k, at_most k (Contractions go_unicode words_scan contraction_mappings) -> 3 <= k) /\
  forall s l o, Yields s l -> Yields (Contractions go_unicode words_scan contraction_mappings s) o -> length l <= length o.
Proof. exact C110_contractions_lemma. Qed.
Print Assumptions C110_Expand.

(** In a row the factors multiply. *)
Theorem C110_chain : forall (U : unicode) (scan : oracle), scanner_ok scan -> uIsSpace U 44 = false ->
  forall fs ks, Forall2 (fun F k => library_filter U scan F /\ at_most k F) fs ks -> at_most (fold_right Nat.mul 1 ks) (ApplyFilters fs).
Proof. exact C110_chain_lemma. Qed.
Print Assumptions C110_chain.

(** -ascii makes no difference to the number printed with -count. *)
Theorem C110_command : forall c a, Forall (fun x => In x plain_flags) a ->
  forall s x, prints c (a ++ ["-ascii"; "-count"]%string) s x <-> prints c (a ++ ["-count"]%string) s x.
Proof. exact C110_command_lemma. Qed.
Print Assumptions C110_command.

(** Fold, then Expand: "can’t" and " " become four tokens, at most six. *)
Example C110_example :
  let fs := [Fold go_unicode; Contractions go_unicode words_scan contraction_mappings] in
  at_most 3 (ApplyFilters fs) /\
  match ToSlice 60 (ApplyFilters fs (source [tok "can’t"%string; tok " "%string] None)) with
  | Ret ((o, None), _) => map tvalue o = ["can"; " "; "not"; " "]%string
  | _ => False
  end.
Proof.
  cbv zeta. split; [|vm_compute; reflexivity].
  apply (C110_chain go_unicode words_scan words_scan_ok go_comma _ [1; 3]). constructor; [|constructor; [|constructor]].
  - split; [apply LF_plain, PF_fold|]. apply (C110_no_more go_unicode words_scan words_scan_ok go_comma). apply NE_changing, CH_fold.
  - split; [apply expand_lib|apply C110_Expand].
Qed.
