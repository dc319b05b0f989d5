(** * Property theorems C99: the command between pipes *)

From Coq Require Import ZArith.
From Verif Require Import Base Utf8 Unicode UnicodeData Token Stream StreamSpec Tokenizer Words Filters Ascii Synonyms ContractionsTable
  Cli CliSpec Process ProcessSpec PipeSpec PropCliLemmas2 PropPipeLemmas.
Local Open Scope string_scope.

(** C99 is false: [jargon -ascii | jargon -lines] is not [jargon -ascii -lines]; one character can be folded to several words, which are one token only in
    the same process. *)
Theorem C99_refuted : ~ (forall c a b, Forall (fun x => In x plain_flags) a -> text_command b ->
  forall s x, prints c (a ++ b) s x <-> piped_through c a b s x).
Proof. exact C99_refutation. Qed.
Print Assumptions C99_refuted.

(** It holds for every text of which the first command prints tokens that are found again in what it prints. *)
Theorem C99_same_tokens_partial : forall c a b s l, Forall (fun x => In x plain_flags) a -> text_command b ->
  Yields (ApplyFilters (map (filter_of_flag c) a) (TokenizeString go_unicode words_scan s)) l ->
  Yields (TokenizeString go_unicode words_scan (text l)) l ->
  forall x, prints c (a ++ b) s x <-> piped_through c a b s x.
Proof. exact C99_general. Qed.
Print Assumptions C99_same_tokens_partial.

(** Contractions can be expanded by a process of their own, whatever is done next. *)
Theorem C99_contractions_first : forall c b, text_command b ->
  forall s x, prints c ("-contractions" :: b) s x <-> piped_through c ["-contractions"] b s x.
Proof. exact C99_expand. Qed.
Print Assumptions C99_contractions_first.

(** Without arguments the command copies its input, byte for byte; before any other it makes no difference. *)
Theorem C99_without_arguments : forall c, (forall s, prints c [] s s) /\
  forall b, text_command b -> forall s x, prints c b s x <-> piped_through c [] b s x.
Proof. exact (fun c => conj (C99_copies c) (C99_nothing c)). Qed.
Print Assumptions C99_without_arguments.

(** Folding twice prints the same as folding once. *)
Theorem C99_folding_again : forall c s x, prints c ["-ascii"] s x <-> piped_through c ["-ascii"] ["-ascii"] s x.
Proof. exact C99_fold. Qed.
Print Assumptions C99_folding_again.

(** Every such command prints something, and one thing only. *)
Theorem C99_prints_one_text : forall c b s, text_command b -> exists x, prints c b s x /\ forall y, prints c b s y -> y = x.
Proof. exact C99_prints. Qed.
Print Assumptions C99_prints_one_text.

(** There are such commands; one of them computed. *)
Example C99_example :
  text_command ["-lines"; "-stem"; "-lang"; "french"] /\ ~ text_command ["-file"; "x"] /\ ~ text_command ["-stem"; "-lang"; "x"] /\
  (let shown args s := match run no_tags sink no_limit true 60 args (mkWorld sink no_files (mkReader s None) (inl 0%N) "") with
    | Ret e => Some (status _ e, stderr _ e, stdout _ (after _ e)) | _ => None end in
  shown ["-contractions"; "-count"] "I can't" = Some (0, "", "5
") /\ shown ["-contractions"] "I can't" = Some (0, "", "I can not") /\ shown ["-count"] "I can not" = Some (0, "", "5
") /\ shown ["-ascii"; "-count"] bracketed = Some (0, "", "1
") /\ shown ["-ascii"] bracketed = Some (0, "", "(1)") /\ shown ["-count"] "(1)" = Some (0, "", "3
")).
Proof.
  split; [|split; [|split]].
  - eexists. split; [reflexivity|]. repeat split. intros (_ & _ & I). apply I. cbn. auto.
  - intros (set & P & _ & _ & F & _). injection P as <-. discriminate F.
  - intros (set & P & _ & _ & _ & _ & U). injection P as <-. apply U. split; [cbn; auto|]. split; [discriminate|]. cbn. intuition discriminate.
  - vm_compute. repeat split.
Qed.
