(** * PropFlagLemmas: proofs for C74. *)

From Coq Require Import Arith Lia Bool.
From Verif Require Import Base Stream Cli CliSpec FlagSpec PropCliLemmas.
Local Open Scope string_scope.

Lemma seqb_eq a b : seqb a b = true <-> a = b.
Proof. apply String.eqb_eq. Qed.

Lemma switches_formal n : In n switches <-> In (n, KBool) formal.
Proof. cbn. intuition (try congruence); subst; auto 20. Qed.
Lemma settings_formal n : In n settings <-> In (n, KString) formal.
Proof. cbn. intuition (try congruence); subst; auto 20. Qed.

Lemma smem_In v l : smem v l = true <-> In v l.
Proof.
  unfold smem. rewrite existsb_exists. split; [intros (x & I & E); apply seqb_eq in E; now subst|].
  intros I. exists v. split; [exact I|]. now apply seqb_eq.
Qed.

Lemma truth_ParseBool v b : truth v b <-> ParseBool v = Some b.
Proof.
  unfold ParseBool. split.
  - destruct 1 as [v I|v I]; cbn in I; intuition (subst; reflexivity).
  - destruct (smem v _) eqn:E; [intros X; injection X as <-; constructor; now apply smem_In|].
    clear E. destruct (smem v _) eqn:E; [intros X; injection X as <-; constructor; now apply smem_In|discriminate].
Qed.

Lemma assoc_In {A} x (l : list (string * A)) v : assoc x l = Some v -> In (x, v) l.
Proof.
  induction l as [|[k w] l IH]; [discriminate|]. cbn. destruct (seqb x k) eqn:E; [|auto].
  apply seqb_eq in E. intros X. injection X as ->. subst. now left.
Qed.

Lemma cut_eq_spec s n v : cut_eq s = (n, v) -> s = match v with Some w => n ++ "=" ++ w | None => n end.
Proof.
  revert n v. induction s as [|c s IH]; cbn; intros n v E; [injection E as <- <-; reflexivity|].
  destruct (Ascii.eqb_spec c "="%char) as [->|]; [injection E as <- <-; reflexivity|].
  destruct (cut_eq s) as [n' v'] eqn:Q. injection E as <- <-. rewrite (IH _ _ eq_refl). now destruct v'.
Qed.

Lemma cut_name_spec s n v : s <> "" -> cut_name s = (n, v) -> s = match v with Some w => n ++ "=" ++ w | None => n end.
Proof.
  destruct s as [|c s]; [congruence|]. intros _. cbn. destruct (cut_eq s) as [n' v'] eqn:Q. intros E. injection E as <- <-.
  rewrite (cut_eq_spec _ _ _ Q). now destruct v'.
Qed.

Lemma parses_flag_Parse args set : parses args set -> flag_Parse args = Some set.
Proof.
  induction 1 as [args S|d n args set Hd F P IH|d n v b args set Hd F B P IH|d n v args set Hd F P IH|d n v args set Hd F P IH].
  - apply stops_parses. exact S.
  - apply switches_formal in F. destruct (formal_names _ _ F) as (c & r & -> & D & Q & Cn & Cv & As & _).
    rewrite (flag_Parse_flag d c r None args _ KBool Hd D Q Cn As), IH. reflexivity.
  - apply switches_formal in F. apply truth_ParseBool in B. destruct (formal_names _ _ F) as (c & r & -> & D & Q & Cn & Cv & As & _).
    specialize (Cv v). cbn [String.append] in *. rewrite (flag_Parse_flag d c _ _ args _ KBool Hd D Q Cv As), IH, B. reflexivity.
  - apply settings_formal in F. destruct (formal_names _ _ F) as (c & r & -> & D & Q & Cn & Cv & As & _).
    rewrite (flag_Parse_flag d c r None (v :: args) _ KString Hd D Q Cn As), IH. reflexivity.
  - apply settings_formal in F. destruct (formal_names _ _ F) as (c & r & -> & D & Q & Cn & Cv & As & _).
    specialize (Cv v). cbn [String.append] in *. rewrite (flag_Parse_flag d c _ _ args _ KString Hd D Q Cv As), IH. reflexivity.
Qed.

Lemma flag_Parse_parses n : forall args set, length args <= n -> flag_Parse args = Some set -> parses args set.
Proof.
  induction n as [|n IH]; intros args set L E.
  { destruct args; [|cbn in L; lia]. injection E as <-. apply PA_end. exact I. }
  destruct args as [|s args]; [injection E as <-; apply PA_end; exact I|]. cbn in L.
  assert (S : no_more_flags (s :: args) \/ exists c r, s = String "-" (String c r) /\ s <> "--").
  { destruct s as [|a s]; [left; right; right; discriminate|]. destruct (Ascii.eqb_spec a "-"%char) as [->|N].
    - destruct s as [|c r]; [left; right; left; reflexivity|]. destruct (string_dec (String "-" (String c r)) "--") as [->|M]; [left; left; reflexivity|].
      right. exists c, r. split; [reflexivity|exact M].
    - left. right. right. intros r X. injection X as -> _. congruence. }
  destruct S as [S|(c & r & -> & M)].
  { rewrite (stops_parses (s :: args) S) in E. injection E as <-. apply PA_end. exact S. }
  cbn [flag_Parse] in E. destruct (seqb (String "-" (String c r)) "--") eqn:Q; [apply seqb_eq in Q; contradiction|].
  set (name := if Ascii.eqb c "-" then r else String c r) in E.
  assert (D : exists d, dashes d /\ String "-" (String c r) = d ++ name).
  { subst name. destruct (Ascii.eqb_spec c "-"%char) as [->|]; [exists "--"; split; [now right|reflexivity]|exists "-"; split; [now left|reflexivity]]. }
  destruct D as (d & Hd & Ds). rewrite Ds. clear Ds Q M. revert E. generalize name. clear name c r. intros name E.
  destruct name as [|c0 r]; [discriminate|].
  destruct (Ascii.eqb c0 "-" || Ascii.eqb c0 "="); [discriminate|].
  destruct (cut_name (String c0 r)) as [nm value] eqn:C. apply cut_name_spec in C; [|discriminate].
  destruct (assoc nm formal) as [[|]|] eqn:A; [| |discriminate]; apply assoc_In in A.
  - destruct (ParseBool _) as [b|] eqn:B; [|discriminate]. destruct (flag_Parse args) as [set'|] eqn:F; [|discriminate]. injection E as <-.
    apply IH in F; [|lia]. rewrite C. destruct value as [v|].
    + apply PA_switch_value; [exact Hd|now apply switches_formal|now apply truth_ParseBool|exact F].
    + injection B as <-. apply PA_switch; [exact Hd|now apply switches_formal|exact F].
  - rewrite C. destruct value as [v|].
    + destruct (flag_Parse args) as [set'|] eqn:F; [|discriminate]. injection E as <-. apply PA_setting_value; [exact Hd|now apply settings_formal|apply IH; [lia|exact F]].
    + destruct args as [|v args]; [discriminate|]. destruct (flag_Parse args) as [set'|] eqn:F; [|discriminate]. injection E as <-. cbn in L.
      apply PA_setting; [exact Hd|now apply settings_formal|apply IH; [lia|exact F]].
Qed.

Lemma C74_lemma args set : flag_Parse args = Some set <-> parses args set.
Proof. split; [now apply (flag_Parse_parses (length args))|apply parses_flag_Parse]. Qed.

Lemma assoc_none {A} x (l : list (string * A)) : (forall v, ~ In (x, v) l) -> assoc x l = None.
Proof. intros H. destruct (assoc x l) eqn:E; [|reflexivity]. apply assoc_In in E. now apply H in E. Qed.

Lemma last_assoc n set v : last_set n set v -> assoc n (rev set) = Some v.
Proof.
  intros (a & b & -> & N). rewrite rev_app_distr. cbn [rev]. rewrite <- app_assoc, assoc_app, assoc_none.
  - cbn. unfold seqb. now rewrite String.eqb_refl.
  - intros w I. apply in_rev in I. now apply N in I.
Qed.

Lemma assoc_last n set v : assoc n (rev set) = Some v -> last_set n set v.
Proof.
  induction set as [|[k w] set IH]; [discriminate|]. cbn [rev]. rewrite assoc_app. destruct (assoc n (rev set)) as [u|] eqn:E.
  - intros X. injection X as ->. destruct (IH eq_refl) as (a & b & -> & N). exists ((k, w) :: a)%list, b. split; [reflexivity|exact N].
  - cbn. destruct (seqb n k) eqn:Q; [|discriminate]. apply seqb_eq in Q. subst. intros X. injection X as ->. exists [], set. split; [reflexivity|].
    intros u I. clear IH. assert (exists w, assoc k (rev set) = Some w) as (x & Y); [|congruence].
    clear E. apply in_rev in I. induction (rev set) as [|[k' w'] l IHl]; [contradiction|]. cbn. destruct (seqb k k') eqn:Q; [eauto|].
    destruct I as [I|I]; [|auto]. injection I as -> _. unfold seqb in Q. now rewrite String.eqb_refl in Q.
Qed.

Lemma parses_kinds args set n v : parses args set -> In (n, v) set -> match v with VBool _ => In n switches | VString _ => In n settings end.
Proof. induction 1; intros I; [contradiction|..]; (destruct I as [I|I]; [injection I as <- <-; assumption|exact (IHparses I)]). Qed.

Lemma C74_values_lemma args set : parses args set ->
  (forall n, In n switches -> (get_bool n set = true <-> last_set n set (VBool true)) /\ (get_bool n set = false <-> ~ last_set n set (VBool true))) /\
  (forall n dflt, In n settings -> (forall v, last_set n set (VString v) -> get_string n dflt set = v) /\
     ((forall v, ~ In (n, v) set) -> get_string n dflt set = dflt) /\ ((exists v, In (n, v) set) -> exists v, last_set n set (VString v))).
Proof.
  intros P. split.
  - intros n I. unfold get_bool.
    assert (A : match assoc n (rev set) with Some (VBool b) => b | _ => false end = true <-> last_set n set (VBool true)).
    { split; [|intros L; now rewrite (last_assoc _ _ _ L)]. destruct (assoc n (rev set)) as [[[|]|]|] eqn:E; try discriminate. intros _. now apply assoc_last. }
    split; [exact A|]. rewrite <- A. symmetry. apply not_true_iff_false.
  - intros n dflt I. unfold get_string. split; [|split].
    + intros v L. now rewrite (last_assoc _ _ _ L).
    + intros N. rewrite assoc_none; [reflexivity|]. intros v J. apply in_rev in J. now apply N in J.
    + intros (v & J). destruct (assoc n (rev set)) as [u|] eqn:E.
      * pose proof (assoc_last _ _ _ E) as L. destruct u as [b|w]; [|exists w; exact L]. exfalso.
        apply assoc_In, in_rev in E. apply (parses_kinds _ _ _ _ P) in E. cbn in E, I. intuition (subst; discriminate).
      * exfalso. clear - E J. apply in_rev in J. induction (rev set) as [|[k w] l IH]; [contradiction|]. cbn in E. destruct (seqb n k) eqn:Q; [discriminate|].
        destruct J as [J|J]; [|auto]. injection J as -> _. unfold seqb in Q. now rewrite String.eqb_refl in Q.
Qed.
