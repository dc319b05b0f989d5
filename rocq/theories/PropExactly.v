(** * Property theorems C23, C57, C62, C71: exactly when they hold *)

From Verif Require Import Base Utf8 Unicode UnicodeData Token Stream StreamSpec ListSpec Tokenizer Filters Ascii FilterSpec OrderSpec Sources
  Generators GenSpec Web WebSpec PropExactlyLemmas.

(** ** C23: what is not folded is kept exactly if it is valid UTF-8 or nothing beside it is folded. *)
Theorem C23_exactly : forall a b, (forall r, In r (runes a) -> ~ foldable r) -> runes (a ++ b) = runes a ++ runes b ->
  (fst (FoldString (a ++ b)) = (a ++ fst (FoldString b))%string <-> valid_utf8 a = true \/ snd (FoldString b) = false).
Proof. exact C23_exact. Qed.
Print Assumptions C23_exactly.

Example C23_example_exactly :
  let bad := String (chr 255) EmptyString in
  runes (bad ++ encode [233]%N) = runes bad ++ [233%N] /\ valid_utf8 bad = false /\ snd (FoldString (encode [233]%N)) = true /\ snd (FoldString "e") = false.
Proof. vm_compute. repeat split; reflexivity. Qed.

(** ** C57: the page shows the text of the tokens exactly if there is no NUL in it. *)
Theorem C57_exactly : forall l s, page l s -> (shown Text s = text l <-> without "000" (text l)).
Proof. exact C57_exact. Qed.
Print Assumptions C57_exactly.

Example C57_example_exactly : without "000" "a<b" /\ ~ without "000" (String "a" (String "000" EmptyString)).
Proof. cbn. intuition discriminate. Qed.

(** ** C62: "drop down" is listed exactly for tags of this name, with a dash or a space, and for tags with the synonym written with a space. *)
Theorem C62_exactly : forall api abort ps m, fetched api "stackoverflow" 1 20 ps -> no_commas ps -> consistent ps -> so_mappings_of api abort = inl m ->
  forall c, listed m "drop down" c <-> exists t, live ps t /\ iname t = c /\ (c = "drop-down"%string \/ c = "drop down"%string \/ In "drop down"%string (isynonyms t)).
Proof. exact C62_exact. Qed.
Print Assumptions C62_exactly.

Example C62_example_exactly :
  let api ts := fun (p : nat) (_ : string) => inl (mkWrapper ts false "" "" BinNums.Z0) : wrapper + error in
  let run ts := so_mappings_of (api ts) (fun _ => ""%string) in
  run [mkItem "drop-down" [] false]%string = inl [("drop down", "drop-down")]%string /\
  run [mkItem "menu" ["drop-down"] false]%string = inl [("menu", "menu")]%string.
Proof. vm_compute. split; reflexivity. Qed.

(** ** C71: a selection and Distinct can change places exactly if among tokens with the same text the first is selected when any is. *)
Theorem C71_exactly : forall p l, either_order (Where p) Distinct l <-> first_decides p l.
Proof. exact C71_exact. Qed.
Print Assumptions C71_exactly.

Theorem C71_Lemmas_exactly : forall l, either_order Lemmas Distinct l <-> first_decides tlemma l.
Proof. exact C71_Lemmas. Qed.
Print Assumptions C71_Lemmas_exactly.

Example C71_example_exactly : first_decides tlemma [lem "a"; tok "b"; tok "a"]%string /\ ~ first_decides tlemma [tok "a"; tok "b"; lem "a"]%string.
Proof.
  split.
  - intros a t b u c E N V P. destruct a as [|a1 [|a2 [|a3 a]]]; cbn in E; try (injection E as <- E; reflexivity).
    + injection E as _ <- E. destruct b as [|? b]; [injection E as <- _; discriminate|]. injection E as _ E. destruct b; discriminate.
    + injection E as _ _ _ E. destruct b; discriminate.
    + injection E as _ _ _ E. destruct a; discriminate.
  - intros H. discriminate (H [] (tok "a") [tok "b"%string] (lem "a") [] eq_refl (fun x (I : In x []) => match I with end) eq_refl eq_refl).
Qed.
