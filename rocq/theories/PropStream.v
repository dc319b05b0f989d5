(** * Property theorems C03 - C09 *)

From Verif Require Import Base Utf8 Unicode Token Stream StreamSpec ListSpec StreamProofs TokenProofs Sources
  PropStreamLemmas.

Theorem C03_fields_reflect_last_call :
  forall (X : Type) (step : nat -> X -> outcome (result * X)) (x : X) (s : TokenStream),
  Token (NewTokenStream step x) = None /\ Err (NewTokenStream step x) = None /\
  (Reachable (NewTokenStream step x) s ->
   (forall fuel r s', Next fuel s = Ret (r, s') -> Token s' = fst r /\ Err s' = snd r) /\
   (forall fuel b s', Scan fuel s = Ret (b, s') ->
      exists r s1, Next fuel s = Ret (r, s1) /\ Token s' = fst r /\ Err s' = snd r /\
        ts_next s' = ts_next s1 /\ (b = true <-> exists t, r = (Some t, None)))).
Proof. exact C03_lemma. Qed.
Print Assumptions C03_fields_reflect_last_call.

Example C03_example :
  let s := source [tok "a"; tok "b"] (Some "e"%string) in
  match Scan 1 s with
  | Ret (b1, s1) =>
    match Next 1 s1 with
    | Ret (_, s2) =>
      match Scan 1 s2 with
      | Ret (b3, s3) => (b1, Token s1, Err s1, Token s2, Err s2, b3, Token s3, Err s3)
      | _ => (false, None, None, None, None, false, None, None)
      end
    | _ => (false, None, None, None, None, false, None, None)
    end
  | _ => (false, None, None, None, None, false, None, None)
  end = (true, Some (tok "a"), None, Some (tok "b"), None, false, None, Some "e"%string).
Proof. vm_compute. reflexivity. Qed.

Theorem C04_consumers_agree :
  forall s l e s', Emits s l e s' ->
  exists s1 s2 s3,
  Returns (fun n => ToSlice n s) ((match e with None => l | Some _ => [] end, e), s1) /\
  Returns (fun n => StreamString n s) ((match e with None => text l | Some _ => EmptyString end, e), s2) /\
  Returns (fun n => Count n s) ((length l, e), s3) /\
  ts_next s1 = ts_next s' /\ ts_next s2 = ts_next s' /\ ts_next s3 = ts_next s'.
Proof. exact C04_lemma. Qed.
Print Assumptions C04_consumers_agree.

Example C04_example_ok :
  let s := source [tok "a"; tok " "; tok "b"] None in
  match ToSlice 9 s, StreamString 9 s, Count 9 s with
  | Ret (x, _), Ret (y, _), Ret (z, _) =>
    x = ([tok "a"; tok " "; tok "b"], None) /\ y = ("a b"%string, None) /\ z = (3, None)
  | _, _, _ => False
  end.
Proof. vm_compute. repeat split. Qed.
Example C04_example_err :
  let s := source [tok "a"; tok " "; tok "b"] (Some "e"%string) in
  match ToSlice 9 s, StreamString 9 s, Count 9 s with
  | Ret (x, _), Ret (y, _), Ret (z, _) =>
    x = ([], Some "e"%string) /\ y = (""%string, Some "e"%string) /\ z = (3, Some "e"%string)
  | _, _, _ => False
  end.
Proof. vm_compute. repeat split. Qed.

Theorem C05_WriteTo :
  forall w acc log, good_writer w acc log ->
  forall s l e s' ws, Emits s l e s' ->
  exists n err ws' s2,
  Returns (fun fuel => WriteTo w fuel ws s) ((n, err), (ws', s2)) /\
  n <= String.length (text l) /\ acc ws' = (acc ws ++ substring 0 n (text l))%string /\
  ((log ws' = log ws ++ map tvalue l /\ n = String.length (text l) /\ err = e) \/
   (exists l1 t l2 ws1 m we, l = l1 ++ t :: l2 /\ log ws' = log ws ++ map tvalue l1 ++ [tvalue t] /\
      wwrite w ws1 (tvalue t) = ((m, Some we), ws') /\ err = Some we /\
      n = String.length (text l1) + m)).
Proof. exact WriteTo_emits. Qed.
Print Assumptions C05_WriteTo.

(** For any writer, also one that breaks the promises: the numbers it reports are added, its first error is returned. *)
Theorem C05_any_writer :
  forall w s l e s' ws, Emits s l e s' ->
  exists n r ws' s2, writes w ws (map tvalue l) n r ws' /\
  Returns (fun fuel => WriteTo w fuel ws s) ((n, match r with Some we => Some we | None => e end), (ws', s2)).
Proof. exact C05_any_lemma. Qed.
Print Assumptions C05_any_writer.

Example C05_example_any :
  match WriteTo (mkWriter unit (fun ws v => ((1, if seqb v "de" then Some "broken" else None), ws))%string) 9 tt (source [tok "abc"; tok "de"; tok "f"] None) with
  | Ret ((n, err), _) => n = 2 /\ err = Some "broken"%string
  | _ => False
  end.
Proof. vm_compute. repeat split. Qed.

Example C05_example_good : good_writer (limited_writer 4) fst snd.
Proof. exact (limited_writer_good 4). Qed.
Example C05_example :
  match WriteTo (limited_writer 4) 9 (""%string, []) (source [tok "abc"; tok "de"; tok "f"] None) with
  | Ret ((n, err), (ws, _)) => n = 4 /\ err = Some "full"%string /\ ws = ("abcd"%string, ["abc"; "de"]%string)
  | _ => False
  end.
Proof. vm_compute. repeat split. Qed.

Theorem C06_Where :
  forall (p : token -> bool) (s : TokenStream),
  (forall l, Yields s l -> Yields (Where p s) (filter p l)) /\
  (forall l e, Fails s l e -> Fails (Where p s) (filter p l) e) /\
  (forall l t s1, Pulls s (l ++ [t]) s1 -> p t = true ->
     exists w, Pulls (Where p s) (filter p (l ++ [t])) w /\ ts_next w = ts_next (Where p s1)).
Proof. exact C06_lemma. Qed.
Print Assumptions C06_Where.

Example C06_example : Yields (source [tok "a"; tok " "; tok "b"] None) [tok "a"; tok " "; tok "b"]
  /\ filter tspace [tok "a"; tok " "; tok "b"] = [tok " "].
Proof. split; [apply source_yields|vm_compute; reflexivity]. Qed.
Example C06_example_endless : exists l s1, Pulls (forever (tok "a")) (l ++ [tok "a"]) s1.
Proof. exact C06_endless. Qed.

(** An endless source with no match makes Next run for ever (as in Go). *)
Theorem C06_Where_diverges :
  forall p t, p t = false -> Diverges (fun n => Next n (Where p (forever t))).
Proof. exact Where_diverges. Qed.
Print Assumptions C06_Where_diverges.

Theorem C07_Words_Lemmas :
  forall s,
  (forall l, Yields s l ->
     Yields (Words s) (filter (fun t => negb (tpunct t) && negb (tspace t)) l) /\
     Yields (Lemmas s) (filter tlemma l) /\
     Yields (Words (Words s)) (filter (fun t => negb (tpunct t) && negb (tspace t)) l) /\
     Yields (Lemmas (Lemmas s)) (filter tlemma l) /\
     exists l', Yields (Words (Lemmas s)) l' /\ Yields (Lemmas (Words s)) l') /\
  (forall l e, Fails s l e ->
     Fails (Words s) (filter (fun t => negb (tpunct t) && negb (tspace t)) l) e /\
     Fails (Lemmas s) (filter tlemma l) e /\
     Fails (Words (Words s)) (filter (fun t => negb (tpunct t) && negb (tspace t)) l) e /\
     Fails (Lemmas (Lemmas s)) (filter tlemma l) e /\
     exists l', Fails (Words (Lemmas s)) l' e /\ Fails (Lemmas (Words s)) l' e).
Proof. exact C07_lemma. Qed.
Print Assumptions C07_Words_Lemmas.

Example C07_example :
  filter (fun t => negb (tpunct t) && negb (tspace t)) [tok "a"; tok " "; lem "b"; tok "."] = [tok "a"; lem "b"]
  /\ filter tlemma [tok "a"; tok " "; lem "b"; tok "."] = [lem "b"].
Proof. vm_compute. split; reflexivity. Qed.

Theorem C08_Distinct :
  forall s,
  (forall l, Yields s l -> exists l', Yields (Distinct s) l' /\ Yields (Distinct (Distinct s)) l' /\
     Subseq l' l /\ NoDup (map tvalue l') /\
     (forall v, In v (map tvalue l') <-> In v (map tvalue l)) /\
     (forall t, In t l' -> exists a b, l = a ++ t :: b /\ Fresh t a)) /\
  (forall l e, Fails s l e -> exists l', Fails (Distinct s) l' e /\ Fails (Distinct (Distinct s)) l' e /\
     Subseq l' l /\ NoDup (map tvalue l') /\
     (forall v, In v (map tvalue l') <-> In v (map tvalue l)) /\
     (forall t, In t l' -> exists a b, l = a ++ t :: b /\ Fresh t a)).
Proof. exact C08_lemma. Qed.
Print Assumptions C08_Distinct.

Example C08_example :
  match ToSlice 20 (Distinct (source [tok "a"; tok " "; lem "a"; tok " "; tok "b"] None)) with
  | Ret (x, _) => x = ([tok "a"; tok " "; tok "b"], None)
  | _ => False
  end.
Proof. vm_compute. reflexivity. Qed.

Theorem C09_Filter_composes :
  forall (s : TokenStream),
  ApplyFilters [] s = s /\
  (forall f fs, ApplyFilters (f :: fs) s = ApplyFilters fs (f s)) /\
  (forall f fs, ApplyFilters (fs ++ [f]) s = f (ApplyFilters fs s)) /\
  (forall fs gs, ApplyFilters (fs ++ gs) s = ApplyFilters gs (ApplyFilters fs s)).
Proof. exact C09_lemma. Qed.
Print Assumptions C09_Filter_composes.

Example C09_example :
  match ToSlice 20 (ApplyFilters [Words; Distinct] (source [tok "a"; tok " "; tok "a"; tok "b"] None)) with
  | Ret (x, _) => x = ([tok "a"; tok "b"], None)
  | _ => False
  end.
Proof. vm_compute. reflexivity. Qed.
