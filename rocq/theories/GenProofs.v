(** * GenProofs: the contraction table is what the generator makes of its base table (C29). *)

From Coq Require Import Permutation.
From Verif Require Import Base Utf8 Unicode UnicodeData Utf8Proofs ContractionsTable ContractionsGen TokenProofs.
Local Open Scope N_scope.

(** Letters of the tables: ASCII or the smart quote. *)
Definition plainb (r : N) : bool := (r <? 128) || (r =? 8217).

Section Gen.
Variable U : unicode.
Variable upper : N -> N.
Variable errorf : string -> string -> error.
Hypothesis Low : forall r, plainb r = true -> uToLower U r = lower_ascii r.
Hypothesis Upp : forall r, plainb r = true -> upper r = upper_ascii r.

(** What one entry contributes. *)
Definition casings : list (string -> outcome string) :=
  [fun s => Ret (if is_ascii_string s then map_ascii_lower s else encode (map lower_ascii (runes s)));
   fun s => match s with
            | EmptyString => Panic
            | String c tail => Ret ((if is_ascii_string (String c EmptyString) then map_ascii_upper (String c EmptyString)
                                     else encode (map upper_ascii (runes (String c EmptyString)))) ++ tail)%string
            end;
   fun s => Ret (if is_ascii_string s then map_ascii_upper s else encode (map upper_ascii (runes s)))].

Definition plain (s : string) : bool := forallb plainb (runes s).
Definition head1 (s : string) : string := match s with EmptyString => EmptyString | String c _ => String c EmptyString end.

Lemma map_plain (f g : N -> N) l : (forall r, plainb r = true -> f r = g r) -> forallb plainb l = true -> map f l = map g l.
Proof.
  intros H P. apply map_ext_in. intros r I. rewrite forallb_forall in P. auto.
Qed.

Lemma cases_plain s : plain s = true -> plain (head1 s) = true ->
  map (fun f => f s) (cases U upper) = map (fun f => f s) casings.
Proof.
  intros P Q. unfold cases, casings, title, strings_ToLower, strings_ToUpper. cbn [map].
  rewrite (map_plain (uToLower U) lower_ascii (runes s) Low P), (map_plain upper upper_ascii (runes s) Upp P).
  destruct s as [|c t]; [reflexivity|]. rewrite (map_plain upper upper_ascii (runes (String c EmptyString)) Upp Q). reflexivity.
Qed.

(** [variants k v]: the entries made from one base entry, provided no function panics. *)
Definition run (f : string -> outcome string) (s : string) : string := match f s with Ret x => x | _ => EmptyString end.
Definition variants (kv : string * string) : gmap :=
  flat_map (fun a => map (fun f => (run f a, run f (snd kv))) casings) (apostrophes (fst kv)).

Definition entry_ok (kv : string * string) : bool :=
  forallb (fun a => plain a && plain (head1 a) && negb (seqb a "")) (apostrophes (fst kv)) &&
  (plain (snd kv) && plain (head1 (snd kv)) && negb (seqb (snd kv) "")).

Lemma assoc_none k (m : gmap) : ~ In k (map fst m) -> assoc k m = None.
Proof.
  induction m as [|[x y] m IH]; intros N; [reflexivity|]. cbn [assoc]. destruct (seqb k x) eqn:E.
  - apply seqb_eq in E. subst. exfalso. apply N. left. reflexivity.
  - apply IH. intros H. apply N. right. exact H.
Qed.

Lemma casings_ret f s : In f casings -> s <> EmptyString -> f s = Ret (run f s).
Proof.
  intros [<-|[<-|[<-|[]]]] N; try reflexivity. unfold run. destruct s; [congruence|reflexivity].
Qed.

Lemma case_loop_ok fs gs a x : map (fun f => f a) fs = map (fun f => f a) gs -> map (fun f => f x) fs = map (fun f => f x) gs ->
  (forall f, In f gs -> f a = Ret (run f a) /\ f x = Ret (run f x)) ->
  forall m, NoDup (map fst (m ++ map (fun f => (run f a, run f x)) gs)) ->
  case_loop errorf fs a x m = Ret (m ++ map (fun f => (run f a, run f x)) gs, None).
Proof.
  revert gs. induction fs as [|f fs IH]; intros [|g gs] E1 E2 R m ND; try discriminate.
  - cbn [map]. rewrite app_nil_r. reflexivity.
  - cbn [map] in E1, E2. injection E1 as A1 A2. injection E2 as B1 B2. cbn [case_loop].
    destruct (R g (or_introl eq_refl)) as [Ra Rx]. rewrite A1, Ra. cbn [bind].
    assert (Na : ~ In (run g a) (map fst m)).
    { rewrite map_app in ND. cbn [map fst] in ND. apply NoDup_remove_2 in ND. intros H. apply ND, in_or_app. left. exact H. }
    rewrite (assoc_none _ _ Na). rewrite B1, Rx. cbn [bind].
    rewrite (IH gs A2 B2).
    + cbn [map]. rewrite <- app_assoc. reflexivity.
    + intros f0 I. apply R. right. exact I.
    + rewrite <- app_assoc. exact ND.
Qed.

Lemma NoDup_app_l {A} (a b : list A) : NoDup (a ++ b) -> NoDup a.
Proof.
  induction a as [|x a IH]; intros H; [constructor|]. inversion H; subst. constructor; [|auto].
  intros I. apply H2, in_or_app. left. exact I.
Qed.

Lemma apos_loop_ok l x : (forall a, In a l -> plain a && plain (head1 a) && negb (seqb a "") = true) ->
  plain x && plain (head1 x) && negb (seqb x "") = true ->
  forall m, NoDup (map fst (m ++ flat_map (fun a => map (fun f => (run f a, run f x)) casings) l)) ->
  apos_loop U upper errorf l x m = Ret (m ++ flat_map (fun a => map (fun f => (run f a, run f x)) casings) l, None).
Proof.
  intros H Hx. apply andb_prop in Hx as [Hx X3]. apply andb_prop in Hx as [X1 X2].
  assert (Xn : x <> EmptyString) by (intros ->; discriminate X3).
  induction l as [|a l IH]; intros m ND.
  - cbn. rewrite app_nil_r. reflexivity.
  - cbn [apos_loop flat_map]. specialize (H a (or_introl eq_refl)) as Ha.
    apply andb_prop in Ha as [Ha A3]. apply andb_prop in Ha as [A1 A2].
    assert (An : a <> EmptyString) by (intros ->; discriminate A3).
    cbn [flat_map] in ND. rewrite app_assoc in ND.
    rewrite (case_loop_ok (cases U upper) casings a x (cases_plain _ A1 A2) (cases_plain _ X1 X2)).
    + cbn [bind]. rewrite IH; [rewrite app_assoc; reflexivity|intros; apply H; right; assumption|exact ND].
    + intros f I. split; apply casings_ret; assumption.
    + rewrite map_app in ND. apply NoDup_app_l in ND. exact ND.
Qed.

Lemma base_loop_ok ms : forallb entry_ok ms = true ->
  forall m, NoDup (map fst (m ++ flat_map variants ms)) ->
  base_loop U upper errorf ms m = Ret (m ++ flat_map variants ms, None).
Proof.
  induction ms as [|[k x] ms IH]; intros E m ND.
  - cbn. rewrite app_nil_r. reflexivity.
  - cbn [forallb] in E. apply andb_prop in E as [E1 E2]. unfold entry_ok in E1. cbn [fst snd] in E1. apply andb_prop in E1 as [Ek Ex].
    rewrite forallb_forall in Ek. cbn [flat_map] in ND. rewrite app_assoc in ND. cbn [base_loop flat_map].
    rewrite (apos_loop_ok _ _ Ek Ex).
    + cbn [bind]. rewrite IH; [|exact E2|exact ND]. rewrite <- app_assoc. reflexivity.
    + rewrite map_app in ND. apply NoDup_app_l in ND. exact ND.
Qed.

(** ** The tables, by computation *)

Fixpoint nodupb (l : list string) : bool := match l with [] => true | x :: r => negb (smem x r) && nodupb r end.

Lemma smem_In x l : smem x l = true <-> In x l.
Proof.
  unfold smem. rewrite existsb_exists. split.
  - intros (y & I & E). apply seqb_eq in E. subst. exact I.
  - intros I. exists x. split; [exact I|]. apply seqb_eq. reflexivity.
Qed.

Lemma nodupb_spec l : nodupb l = true -> NoDup l.
Proof.
  induction l as [|x l IH]; intros H; [constructor|]. cbn in H. apply andb_prop in H as [H1 H2].
  constructor; [|auto]. intros I. apply smem_In in I. rewrite I in H1. discriminate.
Qed.

Definition covers (a b : gmap) : bool := forallb (fun kv => existsb (fun kv' => seqb (fst kv) (fst kv') && seqb (snd kv) (snd kv')) b) a.

Lemma covers_spec a b : covers a b = true -> forall kv, In kv a -> In kv b.
Proof.
  unfold covers. intros H kv I. rewrite forallb_forall in H. specialize (H _ I). apply existsb_exists in H as ([k v] & J & E).
  apply andb_prop in E as [E1 E2]. apply seqb_eq in E1. apply seqb_eq in E2. destruct kv. cbn in *. subst. exact J.
Qed.

Lemma base_ok : forallb entry_ok base_contractions = true.
Proof. vm_compute. reflexivity. Qed.
Lemma base_nodup : nodupb (map fst (flat_map variants base_contractions)) = true.
Proof. vm_compute. reflexivity. Qed.
Lemma base_covers : covers (flat_map variants base_contractions) contraction_mappings = true.
Proof. vm_compute. reflexivity. Qed.
Lemma table_covers : covers contraction_mappings (flat_map variants base_contractions) = true.
Proof. vm_compute. reflexivity. Qed.
Lemma table_nodup : nodupb (map fst contraction_mappings) = true.
Proof. vm_compute. reflexivity. Qed.

Lemma Permutation_flat_map {A B} (f : A -> list B) l l' : Permutation l l' -> Permutation (flat_map f l) (flat_map f l').
Proof.
  induction 1; cbn [flat_map]; auto.
  - apply Permutation_app_head. assumption.
  - rewrite !app_assoc. apply Permutation_app_tail, Permutation_app_comm.
  - etransitivity; eassumption.
Qed.

Lemma NoDup_pairs (m : gmap) : NoDup (map fst m) -> NoDup m.
Proof. apply NoDup_map_inv. Qed.

Lemma C29_lemma order : Permutation base_contractions order ->
  exists m, getMappings U upper errorf order = Ret (m, None) /\ Permutation contraction_mappings m.
Proof.
  intros P. exists (flat_map variants order).
  pose proof (Permutation_flat_map variants _ _ P) as PF.
  assert (N0 : NoDup (map fst (flat_map variants base_contractions))) by apply nodupb_spec, base_nodup.
  split.
  - unfold getMappings. rewrite base_loop_ok; [reflexivity| |].
    + apply forallb_forall. intros kv I. pose proof base_ok as B. rewrite forallb_forall in B. apply B.
      eapply Permutation_in; [symmetry; exact P|exact I].
    + cbn [app]. eapply Permutation_NoDup; [apply Permutation_map, PF|exact N0].
  - etransitivity; [|exact PF]. apply NoDup_Permutation.
    + apply NoDup_pairs, nodupb_spec, table_nodup.
    + apply NoDup_pairs, N0.
    + intros kv. split; [apply (covers_spec _ _ table_covers)|apply (covers_spec _ _ base_covers)].
Qed.
End Gen.




Lemma C29_example_tables : (forall r, plainb r = true -> uToLower go_unicode r = lower_ascii r) .
Proof.
  intros r H. unfold plainb in H. apply orb_prop in H as [H|H].
  - apply N.ltb_lt in H.
    assert (A : forallb (fun n => uToLower go_unicode (N.of_nat n) =? lower_ascii (N.of_nat n)) (seq 0 128) = true) by (vm_compute; reflexivity).
    rewrite forallb_forall in A. specialize (A (N.to_nat r)). rewrite N2Nat.id in A. apply N.eqb_eq, A, in_seq. lia.
  - apply N.eqb_eq in H. subst. vm_compute. reflexivity.
Qed.
