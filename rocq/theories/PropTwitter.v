(** * Property theorems C32 (every text), C67 and C68 *)

From Verif Require Import Base Utf8 Unicode UnicodeData Token Stream StreamSpec Ascii Filters FilterSpec Sources PropSigilLemmas PropTwitterLemmas.

(** What any sigil filter makes of any text. *)
Theorem C32_every_text : forall U sigil legal, sigil <> EmptyString -> forall s l, Yields s l ->
  exists l', Yields (Sigil U sigil legal s) l' /\ joined_by_steps U sigil legal False l l'.
Proof. exact steps_lemma. Qed.
Print Assumptions C32_every_text.

(** [joined_by_steps] determines the output. *)
Theorem C32_steps_are_functional : forall U sigil legal w w' l l1 l2, (w <-> w') ->
  joined_by_steps U sigil legal w l l1 -> joined_by_steps U sigil legal w' l l2 -> l1 = l2.
Proof. exact (fun U sigil legal w w' l l1 l2 => steps_inj U sigil legal _ l w w' l1 l2 (le_n _)). Qed.
Print Assumptions C32_steps_are_functional.

Example C32_every_text_example :
  match ToSlice 30 (Handles go_unicode (source [tok "@"; tok "x.y"; tok "@"; tok "foo"] None)) with
  | Ret ((l, e), _) => (map tvalue l, e) | _ => ([], None) end = (["@"; "x.y"; "@foo"]%string, None).
Proof. vm_compute. reflexivity. Qed.

(** ** C67 *)

(** For the other filters: Norm C26, Expand C28, the synonyms filters C65. *)
Theorem C67_idempotent : forall U words ic sigil legal, sigil <> EmptyString ->
  forall F, In F [Fold U; Stopwords U words ic; Sigil U sigil legal; Handles U; Hashtags U] ->
  forall s l, (forall t, In t l -> tvalue t <> EmptyString) ->
  (Yields s l -> exists l', Yields (F s) l' /\ Yields (F (F s)) l') /\
  (forall e, Fails s l e -> exists l', Fails (F s) l' e /\ Fails (F (F s)) l' e).
Proof. exact C67_lemma. Qed.
Print Assumptions C67_idempotent.

Example C67_example :
  match ToSlice 30 (Handles go_unicode (Handles go_unicode (source [tok "@"; tok "@"; tok "@"; tok "foo"] None))) with
  | Ret ((l, e), _) => (map tvalue l, e) | _ => ([], None) end = (["@"; "@"; "@foo"]%string, None) /\
  match ToSlice 30 (Handles go_unicode (source [tok "@"; tok "@"; tok "@"; tok "foo"] None)) with
  | Ret ((l, e), _) => (map tvalue l, e) | _ => ([], None) end = (["@"; "@"; "@foo"]%string, None).
Proof. vm_compute. split; reflexivity. Qed.
(** With an empty token it is not so. *)
Example C67_empty_token :
  match ToSlice 30 (Handles go_unicode (source [tok "@"; mkToken "" false false false; tok "foo"] None)) with
  | Ret ((l, e), _) => (map tvalue l, e) | _ => ([], None) end = (["@"; "foo"]%string, None) /\
  match ToSlice 30 (Handles go_unicode (Handles go_unicode (source [tok "@"; mkToken "" false false false; tok "foo"] None))) with
  | Ret ((l, e), _) => (map tvalue l, e) | _ => ([], None) end = (["@foo"]%string, None).
Proof. vm_compute. split; reflexivity. Qed.

(** ** C68 *)

(** In "@#b@x" the second handle is found after Hashtags, but not before. *)
Theorem C68_refuted :
  ~ (forall U s l l', sane U -> Yields s l -> Forall (made U) l -> Yields (Handles U (Hashtags U s)) l' -> Yields (Hashtags U (Handles U s)) l').
Proof. exact C68_refutation. Qed.
Print Assumptions C68_refuted.

(** It holds when no sigil is followed by a word that is not legal or by a sigil. *)
Theorem C68_order_partial :
  forall U, sane U -> uIsLetter U 64 = false -> forall s l, Yields s l -> Forall (made U) l ->
  (forall a c b d, l = a ++ c :: b :: d ->
     (tvalue c = "@"%string -> legalHandle (tvalue b) = true \/ (tvalue b <> "@"%string /\ tvalue b <> "#"%string /\ ~ word b)) /\
     (tvalue c = "#"%string -> legalHashtag U (tvalue b) = true \/ (tvalue b <> "@"%string /\ tvalue b <> "#"%string /\ ~ word b))) ->
  exists l', Yields (Handles U (Hashtags U s)) l' /\ Yields (Hashtags U (Handles U s)) l'.
Proof. exact C68_lemma. Qed.
Print Assumptions C68_order_partial.

Example C68_example : sane go_unicode /\ uIsLetter go_unicode 64 = false /\
  match ToSlice 30 (Handles go_unicode (Hashtags go_unicode (source mixed None))) with
  | Ret ((l, e), _) => (map tvalue l, e) | _ => ([], None) end = (["@"; "#b"; "@x"]%string, None) /\
  match ToSlice 30 (Hashtags go_unicode (Handles go_unicode (source mixed None))) with
  | Ret ((l, e), _) => (map tvalue l, e) | _ => ([], None) end = (["@"; "#b"; "@"; "x"]%string, None).
Proof. split; [exact go_sane|]. vm_compute. repeat split; reflexivity. Qed.
