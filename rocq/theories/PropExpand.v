(** * Property theorems C79 - C81, C84 *)

From Verif Require Import Base Utf8 Unicode UnicodeData Token Stream StreamSpec Tokenizer Words Filters Ascii ContractionsTable FilterSpec ExpandSpec
  StreamProofs WordsProofs Sources PropFiltersLemmas PropExpandLemmas PropRetextLemmas PropRefoldLemmas PropFoldExpandLemmas OrderSpec PropFoldExpandExact.

(** ** C79 Contractions in any writing *)

(** Capital letters and curly apostrophes make no difference to which tokens are expanded, nor into what but for these. *)
Theorem C79_any_writing : forall s1 l1 s2 l2, Yields s1 l1 -> Yields s2 l2 -> Forall2 same_spelling l1 l2 ->
  exists o1 o2, Yields (Contractions go_unicode words_scan contraction_mappings s1) o1 /\
    Yields (Contractions go_unicode words_scan contraction_mappings s2) o2 /\ Forall2 same_spelling o1 o2.
Proof. exact C79_lemma. Qed.
Print Assumptions C79_any_writing.

Example C79_example :
  let out l := match ToSlice 20 (Contractions go_unicode words_scan contraction_mappings (source l None)) with Ret ((l, e), _) => (map tvalue l, e) | _ => ([], None) end in
  let curly := ("dO" ++ encode [110; 8217; 116]%N)%string in
  Forall2 same_spelling [tok "Don't"; tok "x"]%string [tok curly; tok "X"%string] /\
  out [tok "Don't"; tok "x"]%string = (["Do"; " "; "not"; "x"]%string, None) /\
  out [tok curly; tok "X"%string] = (["do"; " "; "not"; "X"]%string, None).
Proof. cbv zeta. split; [repeat constructor|]. split; vm_compute; reflexivity. Qed.

(** ** C80 Contractions in a text that was expanded before *)

(** The expanded text has exactly the tokens that were put out, and expanding it again changes nothing. *)
Theorem C80_expanded_text : forall s o, Yields (Contractions go_unicode words_scan contraction_mappings (TokenizeString go_unicode words_scan s)) o ->
  Yields (TokenizeString go_unicode words_scan (text o)) o /\
  Yields (Contractions go_unicode words_scan contraction_mappings (TokenizeString go_unicode words_scan (text o))) o.
Proof. exact C80_lemma. Qed.
Print Assumptions C80_expanded_text.

Example C80_example :
  match ToSlice 20 (Contractions go_unicode words_scan contraction_mappings (TokenizeString go_unicode words_scan "3 we're_I'm-can't"%string)) with
  | Ret ((l, e), _) => (map tvalue l, e) | _ => ([], None) end = (["3"; " "; "we're_I'm"; "-"; "can"; " "; "not"]%string, None) /\
  word_segments "3 we're_I'm-can not"%string = ["3"; " "; "we're_I'm"; "-"; "can"; " "; "not"]%string.
Proof. split; vm_compute; reflexivity. Qed.

(** ** C81 Folding a text that was folded before *)

(** Nothing is left to fold, however the folded text is divided into tokens. *)
Theorem C81_folded_text : forall U s o, Yields (Fold U (TokenizeString U words_scan s)) o ->
  exists o', Yields (TokenizeString U words_scan (text o)) o' /\ Yields (Fold U (TokenizeString U words_scan (text o))) o' /\ text o' = text o.
Proof. exact C81_lemma. Qed.
Print Assumptions C81_folded_text.

(** The tokens can be others: of the one token U+2474 (parenthesized digit one) come the three characters "(1)". *)
Example C81_example :
  match ToSlice 20 (Fold go_unicode (TokenizeString go_unicode words_scan (encode [9332; 233]%N))) with
  | Ret ((l, e), _) => (map tvalue l, e) | _ => ([], None) end = (["(1)"; "e"]%string, None) /\
  match ToSlice 20 (Fold go_unicode (TokenizeString go_unicode words_scan "(1)e"%string)) with
  | Ret ((l, e), _) => (map tvalue l, e) | _ => ([], None) end = (["("; "1"; ")"; "e"]%string, None).
Proof. split; vm_compute; reflexivity. Qed.

(** ** C84 Folding and expanding in either order *)

(** C84 is false: a word with an accent can become a contraction by folding. *)
Theorem C84_refuted :
  ~ (forall s l, Yields s l ->
       exists o, Yields (Fold go_unicode (Contractions go_unicode words_scan contraction_mappings s)) o /\
                 Yields (Contractions go_unicode words_scan contraction_mappings (Fold go_unicode s)) o).
Proof. exact C84_refutation. Qed.
Print Assumptions C84_refuted.

(** The order makes no difference when all tokens that are contractions, folded or not, have only ASCII characters and curly
    apostrophes; for every scanner that splits the expansions in the table at their spaces. *)
Theorem C84_either_order_partial : forall scan, scanner_ok scan ->
  (forall k v, In (k, v) contraction_mappings -> scan (mkReader v None) = mkScanner (split_spaces "" v) None) ->
  forall s l, (forall t, In t l -> contraction (tvalue t) \/ contraction (folded (tvalue t)) -> plain (tvalue t)) ->
  let Expand := Contractions go_unicode scan contraction_mappings in
  let Fold := Fold go_unicode in
  (Yields s l -> exists o, Yields (Fold (Expand s)) o /\ Yields (Expand (Fold s)) o) /\
  (forall e, Fails s l e -> exists o, Fails (Fold (Expand s)) o e /\ Fails (Expand (Fold s)) o e).
Proof. exact C84_partial_lemma. Qed.
Print Assumptions C84_either_order_partial.

(** Exactly then: the order makes no difference to a list of tokens if and only if each of them, folded, has the same
    expansion as before, or none as before. *)
Theorem C84_exactly_partial : forall scan, scanner_ok scan ->
  (forall k v, In (k, v) contraction_mappings -> scan (mkReader v None) = mkScanner (split_spaces "" v) None) ->
  forall l, either_order (Fold go_unicode) (Contractions go_unicode scan contraction_mappings) l <->
  forall t, In t l -> forall e, expansion go_unicode contraction_mappings (tvalue t) e <-> expansion go_unicode contraction_mappings (folded (tvalue t)) e.
Proof. exact C84_exact. Qed.
Print Assumptions C84_exactly_partial.

(** Folding leaves contractions contractions. *)
Theorem C84_still_contractions : forall v, contraction v -> contraction (folded v).
Proof. exact C84_still. Qed.
Print Assumptions C84_still_contractions.

(** Contractions with straight and curly apostrophes, and an accented word that is none. *)
Example C84_example :
  let curly := encode [100; 111; 110; 8217; 116]%N in
  let cafe := encode [99; 97; 102; 233]%N in
  let out f := match ToSlice 20 (f (source [tok "I'm"; tok curly; tok cafe]%string None)) with Ret ((l, e), _) => (map tvalue l, e) | _ => ([], None) end in
  out (fun s => Fold go_unicode (Contractions go_unicode words_scan contraction_mappings s)) = (["I"; " "; "am"; "do"; " "; "not"; "cafe"]%string, None) /\
  out (fun s => Contractions go_unicode words_scan contraction_mappings (Fold go_unicode s)) = (["I"; " "; "am"; "do"; " "; "not"; "cafe"]%string, None) /\
  forall t, In t [tok "I'm"; tok curly; tok cafe]%string -> contraction (tvalue t) \/ contraction (folded (tvalue t)) -> plain (tvalue t).
Proof.
  cbv zeta. split; [vm_compute; reflexivity|]. split; [vm_compute; reflexivity|].
  intros t [<-|[<-|[<-|[]]]].
  - intros _. unfold plain. vm_compute. repeat (constructor; [first [left; reflexivity|right; reflexivity]|]). constructor.
  - intros _. unfold plain. vm_compute. repeat (constructor; [first [left; reflexivity|right; reflexivity]|]). constructor.
  - intros [[e H]|[e H]]; apply lookup_expansion_spec in H; try apply contraction_keys; vm_compute in H; discriminate.
Qed.

(** A capital I with a dot and "'m": expanded first "i am", folded first "I am". *)
Example C84_example_dotted :
  let v := encode [304; 39; 109]%N in
  expansion go_unicode contraction_mappings v "i am"%string /\ ~ expansion go_unicode contraction_mappings (folded v) "i am"%string /\
  expansion go_unicode contraction_mappings (folded v) "I am"%string.
Proof.
  cbv zeta. split; [|split].
  - apply lookup_expansion_spec; [apply contraction_keys|]. vm_compute. reflexivity.
  - intros H. apply lookup_expansion_spec in H; [|apply contraction_keys]. vm_compute in H. discriminate.
  - apply lookup_expansion_spec; [apply contraction_keys|]. vm_compute. reflexivity.
Qed.
