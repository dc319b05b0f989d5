(** * RenderExact: exactly which maps the generators write correctly, for C66. *)

From Verif Require Import Base Utf8 Unicode UnicodeData Words Ascii ContractionsGen ContractionsTable Generators NbaTable SoTable GenSpec Render RenderSpec StreamProofs Utf8Proofs WordsProofs WordSplitProofs TokenProofs GeneratorProofs RenderProofs PropRenderLemmas RenderLayout.
Local Open Scope N_scope.

(** ** Reading a text with a line break in a literal *)

Lemma white_then c d w w' x y : white w -> white w' -> ~ In (byte_of c) [32; 9; 13; 10] -> ~ In (byte_of d) [32; 9; 13; 10] ->
  (w ++ String c x)%string = (w' ++ String d y)%string -> c = d.
Proof.
  intros W W' C D. revert w' W'. induction w as [|h w IH]; intros [|h' w'] W' E; cbn in E; injection E as E1 E2.
  - exact E1.
  - subst. destruct C. apply W'. now left.
  - subst. destruct D. apply W. now left.
  - eapply (IH ltac:(intros z I; apply W; now right) w'); [intros z I; apply W'; now right|exact E2].
Qed.

Section Parse.
Variable ind : string.
Hypothesis IND : only [9] ind.
Notation nl := (newline ++ ind)%string.
Notation sepN := (String "," nl).
Notation front := (front sepN).

Definition lit_entry (kv : string * string) : Prop := (exists k, literal (fst kv) k) /\ (exists v, literal (snd kv) v).

(** A text that goes on with [bad], after an opening quote, is no list of elements if no entry begins like this. *)
Definition stuck (bad : string) : Prop :=
  forall k' k a b v' v x, literal k' k -> white_in_line a -> white b -> literal v' v ->
    (k' ++ String Q (a ++ ":" ++ b ++ quoted v' ++ x))%string = bad -> False.

Lemma no_parse m : Forall lit_entry m -> forall body m' w z bad, stuck bad -> white w -> elements body m' ->
  (body ++ String "}" z)%string = (w ++ String Q (front m ++ bad))%string -> False.
Proof.
  induction 1 as [|[kb vb] m [(k1 & K1) (v1 & V1)] F IH]; intros body m' w z bad St W El E.
  - cbn [RenderLayout.front append] in E. destruct El as [w0 W0|w0 k0' k0 a0 b0 v0' v0 c0 W0 K0 A0 B0 V0 C0|w0 k0' k0 a0 b0 v0' v0 c0 rest0 m0 W0 K0 A0 B0 V0 C0 R0].
    + assert (X : "}"%char = Q) by (eapply white_then; [exact W0|exact W| | |exact E]; vm_compute; intuition discriminate). discriminate X.
    + unfold quoted at 1 in E. repeat (rewrite ?sapp_assoc in E; cbn [append] in E). apply (free_split Q) in E as [_ E]; [|eapply only_not; [eassumption|cbn; intuition discriminate]..].
      refine (St k0' k0 a0 b0 v0' v0 (c0 ++ String "}" z)%string K0 A0 B0 V0 _). etransitivity; [|exact E]. unfold quoted. repeat (rewrite ?sapp_assoc; cbn [append]). reflexivity.
    + unfold quoted at 1 in E. repeat (rewrite ?sapp_assoc in E; cbn [append] in E). apply (free_split Q) in E as [_ E]; [|eapply only_not; [eassumption|cbn; intuition discriminate]..].
      refine (St k0' k0 a0 b0 v0' v0 (c0 ++ "," ++ rest0 ++ String "}" z)%string K0 A0 B0 V0 _). etransitivity; [|exact E]. unfold quoted. repeat (rewrite ?sapp_assoc; cbn [append]). reflexivity.
  - cbn [fst snd] in *. cbn [RenderLayout.front] in E. destruct El as [w0 W0|w0 k0' k0 a0 b0 v0' v0 c0 W0 K0 A0 B0 V0 C0|w0 k0' k0 a0 b0 v0' v0 c0 rest0 m0 W0 K0 A0 B0 V0 C0 R0].
    + assert (X : "}"%char = Q) by (eapply white_then; [exact W0|exact W| | |exact E]; vm_compute; intuition discriminate). discriminate X.
    + unfold quoted in E. repeat (rewrite ?sapp_assoc in E; cbn [append] in E). apply (free_split Q) in E as [_ E]; [|eapply only_not; [eassumption|cbn; intuition discriminate]..].
      apply (literal_unique _ _ K0 _ _ _ _ K1) in E as [_ E]. apply (free_split ":" a0 "") in E as [_ E]; [|eapply only_not; [eassumption|cbn; intuition discriminate]|intros []].
      apply (free_split Q b0 "") in E as [_ E]; [|eapply only_not; [eassumption|cbn; intuition discriminate]|intros []].
      apply (literal_unique _ _ V0 _ _ _ _ V1) in E as [_ E].
      assert (X : "}"%char = ","%char).
      { eapply (white_then "}" "," c0 ""); [intros ch I; specialize (C0 ch I); cbn in C0 |- *; intuition| intros ? []| | |exact E]; vm_compute; intuition discriminate. }
      discriminate X.
    + unfold quoted in E. repeat (rewrite ?sapp_assoc in E; cbn [append] in E). apply (free_split Q) in E as [_ E]; [|eapply only_not; [eassumption|cbn; intuition discriminate]..].
      apply (literal_unique _ _ K0 _ _ _ _ K1) in E as [_ E]. apply (free_split ":" a0 "") in E as [_ E]; [|eapply only_not; [eassumption|cbn; intuition discriminate]|intros []].
      apply (free_split Q b0 "") in E as [_ E]; [|eapply only_not; [eassumption|cbn; intuition discriminate]|intros []].
      apply (literal_unique _ _ V0 _ _ _ _ V1) in E as [_ E].
      apply (free_split "," c0 "") in E as [_ E]; [|eapply only_not; [eassumption|cbn; intuition discriminate]|intros []].
      eapply (IH rest0 m0 nl z bad); [exact St|apply white_break; exact IND|exact R0|]. rewrite E. repeat (rewrite ?sapp_assoc; cbn [append]). reflexivity.
Qed.

Lemma stuck_key b t : units b -> In (chr 10) (la b) -> stuck (b ++ String Q t).
Proof.
  intros U I k' k a bb v' v x K _ _ _ E. apply (units_unique _ _ _ _ (units_literal _ _ K) U) in E as [-> _]. exact (literal_no_break _ _ K I).
Qed.
Lemma stuck_value k0 b t : units k0 -> units b -> In (chr 10) (la b) -> stuck (k0 ++ String Q (String ":" (String Q (b ++ String Q t)))).
Proof.
  intros U0 U I k' k a bb v' v x K A B V E. apply (units_unique _ _ _ _ (units_literal _ _ K) U0) in E as [_ E]. cbn [append] in E.
  apply (free_split ":" a "") in E as [_ E]; [|eapply only_not; [eassumption|cbn; intuition discriminate]|intros []].
  unfold quoted in E. cbn [append] in E. apply (free_split Q bb "") in E as [_ E]; [|eapply only_not; [eassumption|cbn; intuition discriminate]|intros []].
  rewrite sapp_assoc in E. cbn [append] in E. apply (units_unique _ _ _ _ (units_literal _ _ V) U) in E as [-> _]. exact (literal_no_break _ _ V I).
Qed.

Lemma elements_front m : forall w ms k v kb vb, white w -> Forall2 (fun e kv => literal (fst e) (fst kv) /\ literal (snd e) (snd kv)) m ms ->
  literal kb k -> literal vb v ->
  elements (w ++ String Q (front m ++ kb ++ String Q (String ":" (String Q (vb ++ String Q sepN))))) (ms ++ [(k, v)]).
Proof.
  assert (M : forall w kb k vb v rest l, white w -> literal kb k -> literal vb v -> elements rest l ->
    elements (w ++ String Q (kb ++ String Q (String ":" (String Q (vb ++ String Q (String "," rest)))))) ((k, v) :: l)).
  { intros w kb k vb v rest l W K V R. pose proof (E_more w kb k "" "" vb v "" rest l W K (only_nil _) (only_nil _) V (only_nil _) R) as X. revert X.
    unfold quoted. repeat (rewrite ?sapp_assoc; cbn [append]). exact (fun x => x). }
  induction m as [|[k0 v0] m IH]; intros w ms k v kb vb W F K V; inversion F as [|? [k1 v1] ? ms' [L1 L2] F']; subst; cbn [RenderLayout.front append app].
  - apply M; [exact W|exact K|exact V|]. apply E_end, white_break, IND.
  - cbn [fst snd] in *. repeat (rewrite ?sapp_assoc; cbn [append]). apply M; [exact W|exact L1|exact L2|].
    specialize (IH nl ms' k v kb vb (white_break _ IND) F' K V). revert IH. repeat (rewrite ?sapp_assoc; cbn [append]). exact (fun x => x).
Qed.
End Parse.

(** ** What is found in a literal *)

Lemma app_split (a b x y : string) c : (a ++ b)%string = (x ++ String c y)%string ->
  (exists a2, a = (x ++ String c a2)%string /\ y = (a2 ++ b)%string) \/ (exists x2, x = (a ++ x2)%string /\ b = (x2 ++ String c y)%string).
Proof.
  revert x. induction a as [|h a IH]; intros x E; cbn in E; [right; exists x; split; [reflexivity|exact E]|]. destruct x as [|h' x]; cbn in E.
  - injection E as -> E. left. exists a. auto.
  - injection E as -> E. destruct (IH x E) as [(a2 & -> & ->)|(x2 & -> & ->)]; [left; exists a2|right; exists x2]; split; reflexivity.
Qed.
Lemma app_last (a b : string) c : (a ++ b)%string = String c "" -> b <> ""%string -> a = ""%string.
Proof. destruct a as [|h a]; [reflexivity|]. cbn. intros E N. injection E as _ E. destruct a; [|discriminate]. cbn in E. congruence. Qed.

Lemma chunks_suffix l1 : forall s l2, chunks s = l1 ++ l2 -> exists s2, l2 = chunks s2 /\ s = (sconcat (map snd l1) ++ s2)%string.
Proof.
  induction l1 as [|[r b] l1 IH]; intros s l2 E; [exists s; auto|]. destruct s as [|c s]; [discriminate|].
  destruct (chunks_step c s) as (r' & b' & s' & E' & T & _). rewrite E' in E. cbn in E. injection E as -> -> E. destruct (IH _ _ E) as (s2 & -> & ->).
  exists s2. split; [reflexivity|]. cbn [map snd sconcat]. rewrite T. now rewrite sapp_assoc.
Qed.

Lemma exists_last_or {A} (l : list A) : l = [] \/ exists l1 x, l = l1 ++ [x].
Proof. destruct l as [|a l]; [auto|right]. destruct (exists_last (l := a :: l)) as (l1 & x & E); [discriminate|eauto]. Qed.

Section Bodies.
Variable isPrint : N -> bool.
Hypothesis PO : print_ok isPrint.
Notation e := (qbody isPrint).

Lemma e_units s : units (e s).
Proof. exact (units_literal _ _ (literal_qbody isPrint PO s)). Qed.

Lemma e_app x y : fresh_start y -> e (x ++ y) = (e x ++ e y)%string.
Proof. intros F. unfold qbody. rewrite chunks_app by exact F. rewrite map_app. apply sconcat_app. Qed.
Lemma e_quote y : e (String Q y) = String backslash (String Q (e y)).
Proof. reflexivity. Qed.
Lemma fresh n y : n < 128 -> fresh_start (String (chr n) y).
Proof. intros L. cbn [fresh_start]. rewrite byte_chr by lia. unfold cont, in_range. rewrite (proj2 (N.leb_gt 128 n)) by lia. reflexivity. Qed.

Lemma comma_e s : e s = ", "%string -> s = ", "%string.
Proof. intros E. pose proof (literal_qbody isPrint PO s) as L. rewrite E in L. exact (literal_comma _ L). Qed.

(** Only their own runes are written with quotes and braces. *)
Lemma harm s r b c : In (r, b) (chunks s) -> In c (la (escaped isPrint (r, b))) -> harmful c ->
  b = String c "" /\ (escaped isPrint (r, b) = String backslash (String c "") /\ c = Q \/ escaped isPrint (r, b) = String c "" /\ c <> Q).
Proof.
  intros I J H. destruct (chunk_strong _ _ _ I) as [[V ->]|(-> & c0 & ->)].
  - assert (EE : escaped isPrint (r, encode_rune r) = escaped_rune isPrint r).
    { unfold escaped. destruct (encode_rune r) as [|c1 [|c2 x]] eqn:E; try reflexivity. destruct (r =? RuneError) eqn:X; [|reflexivity]. apply N.eqb_eq in X. subst r. vm_compute in E. discriminate. }
    rewrite EE in *.
    assert (R : r = 34 \/ r = 123 \/ r = 125).
    { destruct (N.eq_dec r 34); [auto|]. destruct (N.eq_dec r 123); [auto|]. destruct (N.eq_dec r 125); [auto|]. exfalso.
      apply (escaped_rune_free isPrint r V) in J; [exact (J H)|]. intros d D Hd. rewrite encode_rune_valid in D by exact V.
      destruct (N.lt_ge_cases r 128) as [S|S].
      - unfold enc_raw in D. rewrite (proj2 (N.ltb_lt _ _) S) in D. destruct D as [D|[]]. apply (f_equal byte_of) in D. rewrite byte_chr in D by lia. destruct Hd as [Hd|[Hd|Hd]]; lia.
      - pose proof (enc_high r V S _ D). destruct Hd as [Hd|[Hd|Hd]]; lia. }
    destruct R as [->|[->| ->]]; unfold escaped_rune in *; cbn [N.eqb Pos.eqb orb] in *.
    + destruct J as [<-|[<-|[]]]; [exfalso; destruct H as [H|[H|H]]; discriminate H|]. split; [reflexivity|]. left. split; reflexivity.
    + destruct (isPrint 123); [|exfalso; repeat (destruct J as [<-|J]; [destruct H as [H|[H|H]]; discriminate H|]); destruct J].
      destruct J as [<-|[]]. split; [reflexivity|]. right. split; [reflexivity|discriminate].
    + destruct (isPrint 125); [|exfalso; repeat (destruct J as [<-|J]; [destruct H as [H|[H|H]]; discriminate H|]); destruct J].
      destruct J as [<-|[]]. split; [reflexivity|]. right. split; [reflexivity|discriminate].
  - exfalso. unfold escaped in J. rewrite N.eqb_refl in J. destruct J as [<-|[<-|J]]; try (destruct H as [H|[H|H]]; discriminate H).
    apply hexdigits_chars in J. unfold harmful in H. lia.
Qed.
Lemma harm_Q : harmful Q. Proof. left. reflexivity. Qed.
Lemma harm_O : harmful "{". Proof. right. left. reflexivity. Qed.
Lemma harm_C : harmful "}". Proof. right. right. reflexivity. Qed.

Lemma escaped_nonempty s r b : In (r, b) (chunks s) -> escaped isPrint (r, b) <> ""%string.
Proof.
  intros I. destruct (chunk_strong _ _ _ I) as [[V ->]|(-> & c0 & ->)]; [|unfold escaped; rewrite N.eqb_refl; discriminate]. intros X.
  assert (N : encode_rune r <> ""%string).
  { rewrite encode_rune_valid by exact V. pose proof (enc_raw_length r) as Y. destruct (enc_raw r); [cbn in Y; lia|discriminate]. }
  unfold escaped in X. assert (Y : escaped_rune isPrint r <> ""%string).
  { unfold escaped_rune. repeat match goal with |- (if ?b then _ else _) <> _ => destruct b; try discriminate end. exact N. }
  destruct (encode_rune r) as [|c1 [|c2 z]]; try exact (Y X). destruct (r =? RuneError); [discriminate|exact (Y X)].
Qed.

Lemma head_closing s x : e s = ("}" ++ x)%string -> exists y, s = ("}" ++ y)%string.
Proof.
  intros E. destruct s as [|c s]; [discriminate|]. destruct (chunks_step c s) as (r & b & s' & E' & T & N & _). unfold qbody in E. rewrite E' in E. cbn [map sconcat] in E.
  assert (I : In (r, b) (chunks (String c s))) by (rewrite E'; now left). pose proof (escaped_nonempty _ _ _ I) as Ne.
  destruct (escaped isPrint (r, b)) as [|c1 u] eqn:Eu; [congruence|]. cbn in E. injection E as -> E.
  destruct (harm _ r b "}"%char I) as [-> _]; [rewrite Eu; now left|exact harm_C|]. exists s'. exact T.
Qed.

Lemma last_open s x : e s = (x ++ "{")%string -> exists y, s = (y ++ "{")%string.
Proof.
  intros E. rewrite <- (chunks_text s). unfold qbody in E. pose proof (fun r b => harm s r b "{"%char) as Hm. pose proof (escaped_nonempty s) as Hn. revert E Hm Hn.
  generalize (chunks s). intros l. revert x. induction l as [|[r b] l IH]; intros x E Hm Hn; [destruct x; discriminate E|]. cbn [map sconcat snd] in *.
  destruct (app_split _ _ _ _ _ E) as [(a2 & Ea & El)|(x2 & -> & El)].
  - assert (Z : a2 = ""%string /\ sconcat (map (escaped isPrint) l) = ""%string) by (destruct a2; [auto|discriminate]). destruct Z as [-> Z].
    destruct (Hm r b (or_introl eq_refl)) as [-> _]; [rewrite Ea, la_app; apply in_or_app; right; now left|exact harm_O|].
    destruct l as [|[r' b'] l]; [now exists ""%string|]. exfalso. apply (Hn r' b' (or_intror (or_introl eq_refl))). cbn [map sconcat] in Z. now destruct (escaped isPrint (r', b')).
  - destruct (IH x2 El) as (y & Y); [intros r' b' I; apply Hm; now right|intros r' b' I; apply Hn; now right|]. exists (b ++ y)%string. rewrite Y. now rewrite sapp_assoc.
Qed.

(** A double quote comes from one. *)
Lemma at_quote s x y : e s = (x ++ String Q y)%string -> exists s1 s2, s = (s1 ++ String Q s2)%string /\ y = e s2.
Proof.
  intros E. assert (X : exists l1 l2, chunks s = l1 ++ (34, q) :: l2 /\ y = sconcat (map (escaped isPrint) l2)).
  { unfold qbody in E. assert (Hm : forall r b, In (r, b) (chunks s) -> In Q (la (escaped isPrint (r, b))) -> (r, b) = (34, q) /\ escaped isPrint (r, b) = String backslash q).
    { intros r b I J. destruct (harm s r b Q I J harm_Q) as [-> [[D _]|[_ D]]]; [|congruence]. split; [|exact D].
      destruct (chunk_strong _ _ _ I) as [[V B]|(-> & c & B)].
      - f_equal. assert (B' : (encode_rune r ++ "")%string = String (chr 34) "") by (rewrite <- B; reflexivity). exact (proj1 (rune_prefix r 34 _ _ V ltac:(lia) B')).
      - exfalso. unfold escaped in D. rewrite N.eqb_refl in D. discriminate D. }
    revert E Hm. generalize (chunks s). intros l. revert x. induction l as [|[r b] l IH]; intros x E Hm; [destruct x; discriminate E|]. cbn [map sconcat] in E.
    destruct (app_split _ _ _ _ _ E) as [(a2 & Ea & El)|(x2 & -> & El)].
    - destruct (Hm r b (or_introl eq_refl)) as [D1 D2]; [rewrite Ea, la_app; apply in_or_app; right; now left|]. rewrite D1. exists [], l. split; [reflexivity|].
      rewrite D2 in Ea. destruct x as [|c1 [|c2 x]]; cbn in Ea; [discriminate Ea| |destruct x; discriminate Ea]. injection Ea as _ <-. exact El.
    - destruct (IH x2 El) as (l1 & l2 & -> & Y); [intros r' b' I; apply Hm; now right|]. exists ((r, b) :: l1), l2. auto. }
  destruct X as (l1 & l2 & C & Y). change (l1 ++ (34, q) :: l2) with (l1 ++ [(34, q)] ++ l2) in C. rewrite app_assoc in C.
  destruct (chunks_suffix _ _ _ C) as (s2 & -> & T). exists (sconcat (map snd l1)), s2. split; [|exact Y].
  rewrite T, map_app, sconcat_app, sapp_assoc. reflexivity.
Qed.

Lemma spoiled_broken s : spoiled (e s) -> broken_inside s.
Proof.
  intros [(x & E)|[(x & E)|[(x & y & E)|(x & E)]]].
  - destruct (at_quote _ _ _ E) as (s1 & s2 & -> & Y). right. right. right. exists s1. rewrite (comma_e s2 (eq_sym Y)). reflexivity.
  - left. exact (last_open _ _ E).
  - destruct (at_quote _ _ _ E) as (s1 & s2 & -> & Y). destruct (head_closing s2 y (eq_sym Y)) as (z & ->). right. right. left. eauto.
  - right. left. exact (head_closing _ _ E).
Qed.

Lemma fine_or_spoiled b : units b -> fine b \/ spoiled b.
Proof.
  intros U. unfold fine, spoiled. pose proof (passA "" ltac:(intros ? []) b U) as A. pose proof (passB "" ltac:(intros ? []) b U) as B. pose proof (passC "" ltac:(intros ? []) b U) as C.
  assert (D : closing b \/ ~ closing b).
  { destruct b as [|c b]; [right; intros (x & X); discriminate X|]. destruct (Ascii.eqb_spec c "}") as [->|N]; [left; exists b; reflexivity|right; intros (x & X); injection X as X _; congruence]. }
  tauto.
Qed.
Lemma fine_not_spoiled b : fine b -> ~ spoiled b.
Proof. unfold fine, spoiled. tauto. Qed.

(** ** The first entry with something to be found *)

Lemma first_bad m : Forall (fun kv => units (fst kv) /\ units (snd kv)) m ->
  Forall fine_entry m \/ exists m1 k v m2, m = m1 ++ (k, v) :: m2 /\ Forall fine_entry m1 /\ units k /\ units v /\ (spoiled k \/ (fine k /\ (spoiled v \/ v = ", "%string))).
Proof.
  induction 1 as [|[k v] m [K V] F IH]; [left; constructor|]. cbn [fst snd] in *.
  assert (D : fine_entry (k, v) \/ (spoiled k \/ (fine k /\ (spoiled v \/ v = ", "%string)))).
  { unfold fine_entry. cbn [fst snd]. destruct (fine_or_spoiled k K); [|tauto]. destruct (fine_or_spoiled v V); [|tauto]. destruct (String.eqb_spec v ", "); tauto. }
  destruct D as [D|D].
  - destruct IH as [IH|(m1 & k1 & v1 & m2 & -> & F1 & R)]; [left; constructor; assumption|]. right. exists ((k, v) :: m1), k1, v1, m2. split; [reflexivity|]. split; [constructor; assumption|exact R].
  - right. exists [], k, v, m. repeat split; auto.
Qed.

(** ** The source *)

Definition entry_text (kv : string * string) : string := String Q (fst kv ++ String Q (String ":" (String Q (snd kv ++ q)))).
Lemma joined m1 k v m2 t : exists z, (join ", " (map entry_text (m1 ++ (k, v) :: m2)) ++ t)%string =
  String Q (front ", " m1 ++ k ++ String Q (String ":" (String Q (v ++ String Q z)))) /\ (m2 = [] -> z = t).
Proof.
  induction m1 as [|[k1 v1] m1 IH].
  - destruct m2 as [|kv m2].
    + exists t. split; [|auto]. cbn [app map join front entry_text fst snd append]. repeat (rewrite ?sapp_assoc; cbn [append]). reflexivity.
    + eexists. split; [|discriminate]. change (map entry_text ([] ++ (k, v) :: kv :: m2)) with (entry_text (k, v) :: entry_text kv :: map entry_text m2).
      change (join ", " (entry_text (k, v) :: entry_text kv :: map entry_text m2)) with (entry_text (k, v) ++ ", " ++ join ", " (entry_text kv :: map entry_text m2))%string.
      unfold entry_text at 1. cbn [fst snd front append]. repeat (rewrite ?sapp_assoc; cbn [append]). reflexivity.
  - destruct IH as (z & E & Z). exists z. split; [|exact Z].
    assert (J : exists x l, map entry_text (m1 ++ (k, v) :: m2) = x :: l) by (destruct m1; cbn; eauto). destruct J as (x & l & J).
    cbn [app map]. rewrite J in *. change (join ", " (entry_text (k1, v1) :: x :: l)) with (entry_text (k1, v1) ++ ", " ++ join ", " (x :: l))%string.
    unfold entry_text at 1. cbn [fst snd front]. repeat (rewrite ?sapp_assoc; cbn [append]). rewrite E. repeat (rewrite ?sapp_assoc; cbn [append]). reflexivity.
Qed.

Definition bodies (m : gmap) : gmap := map (fun kv => (e (fst kv), e (snd kv))) m.
Lemma bodies_units m : Forall (fun kv => units (fst kv) /\ units (snd kv)) (bodies m).
Proof. apply Forall_map. apply Forall_forall. intros [k v] _. split; apply e_units. Qed.
Lemma bodies_literal m : Forall lit_entry (bodies m).
Proof. apply Forall_map. apply Forall_forall. intros [k v] _. split; eexists; apply (literal_qbody isPrint PO). Qed.

Definition good (m : gmap) : Prop := Forall fine_entry (bodies m) /\ first_ok (bodies m).

Lemma good_or m : good m \/ (exists v m', bodies m = (", "%string, v) :: m') \/
  (first_ok (bodies m) /\ exists m1 k v m2, bodies m = m1 ++ (k, v) :: m2 /\ Forall fine_entry m1 /\ units k /\ units v /\ (spoiled k \/ (fine k /\ (spoiled v \/ v = ", "%string)))).
Proof.
  unfold good. destruct (first_bad _ (bodies_units m)) as [F|B].
  - destruct (bodies m) as [|[k v] m']; [left; split; [constructor|exact I]|]. destruct (String.eqb_spec k ", ") as [->|N]; [right; left; eauto|left; split; [exact F|exact N]].
  - right. destruct (bodies m) as [|[k v] m']; [right; split; [exact I|exact B]|]. destruct (String.eqb_spec k ", ") as [->|N]; [left; eauto|right; split; [exact N|exact B]].
Qed.

Lemma broken_or_good m : ~ good m -> broken_map m.
Proof.
  intros N. destruct (good_or m) as [G|[(v & m' & E)|(_ & m1 & k & v & m2 & E & _ & _ & _ & B)]]; [contradiction| |].
  - right. destruct m as [|[k0 v0] m]; [discriminate|]. cbn in E. injection E as E _ _. rewrite (comma_e _ E). eauto.
  - left. assert (I : In (k, v) (bodies m)) by (rewrite E; apply in_or_app; right; now left). apply in_map_iff in I as ([k0 v0] & E0 & I). cbn in E0. injection E0 as <- <-.
    exists k0, v0. split; [exact I|]. destruct B as [B|[_ [B|B]]]; [left; now apply spoiled_broken|right; left; now apply spoiled_broken|right; right; now apply comma_e].
Qed.

Section Printable.
Hypothesis PA : forall r, 32 <= r < 127 -> isPrint r = true.
Lemma e_char n y : 32 <= n < 127 -> n <> 34 -> n <> 92 -> e (String (chr n) y) = String (chr n) (e y).
Proof.
  intros R N1 N2. unfold qbody. cbn [chunks]. rewrite byte_chr by lia. rewrite (proj2 (N.ltb_lt n 128)) by lia. cbn [map sconcat]. unfold escaped, escaped_rune.
  rewrite (proj2 (N.eqb_neq n RuneError)) by (unfold RuneError; lia). rewrite (proj2 (N.eqb_neq n 34)), (proj2 (N.eqb_neq n 92)) by assumption. cbn [orb]. rewrite PA by exact R.
  rewrite encode_rune_valid by (apply valid_rune_spec; lia). unfold enc_raw. rewrite (proj2 (N.ltb_lt n 128)) by lia. reflexivity.
Qed.
Lemma broken_spoiled s : broken_inside s -> spoiled (e s).
Proof.
  intros [(x & ->)|[(x & ->)|[(x & y & ->)|(x & ->)]]].
  - right. left. exists (e x). rewrite e_app by (apply (fresh 123); lia). f_equal. exact (e_char 123 "" ltac:(lia) ltac:(lia) ltac:(lia)).
  - right. right. right. exists (e x). exact (e_char 125 x ltac:(lia) ltac:(lia) ltac:(lia)).
  - right. right. left. exists (e x ++ String backslash "")%string, (e y). rewrite e_app by (apply (fresh 34); lia). rewrite e_quote.
    change ("}" ++ y)%string with (String (chr 125) y). rewrite e_char by lia. rewrite sapp_assoc. reflexivity.
  - left. exists (e x ++ String backslash "")%string. rewrite e_app by (apply (fresh 34); lia). rewrite e_quote.
    change ", "%string with (String (chr 44) (String (chr 32) "")) at 1. rewrite !e_char by lia. rewrite sapp_assoc. reflexivity.
Qed.
Lemma e_comma : e ", " = ", "%string.
Proof. change ", "%string with (String (chr 44) (String (chr 32) "")) at 1. now rewrite !e_char by lia. Qed.
Lemma good_not_broken m : good m -> ~ broken_map m.
Proof.
  intros [F O] [(k & v & I & B)|(v & m' & ->)].
  - rewrite Forall_forall in F. destruct (F (e k, e v)) as (K & V & N); [apply in_map_iff; exists (k, v); auto|]. cbn [fst snd] in *. destruct B as [B|[B|B]].
    + exact (fine_not_spoiled _ K (broken_spoiled _ B)).
    + exact (fine_not_spoiled _ V (broken_spoiled _ B)).
    + subst v. exact (N e_comma).
  - cbn in O. exact (O e_comma).
Qed.
End Printable.

(** ** What is handed to gofmt *)

Section Files.
Variable pkg : string.
Variable t : target.
Hypothesis HO : head_ok t.
Hypothesis HH : head_of pkg (t_head t).
Notation ind := (t_indent t).
Notation nl := (newline ++ ind)%string.
Notation sepN := (String "," nl).
Notation P := (t_head t ++ "map[string]string")%string.

Lemma P_quote : ~ In Q (la P).
Proof. rewrite la_app. intros I. apply in_app_or in I as [I|I]; [exact (proj1 HO I)|revert I; not_in]. Qed.
Lemma P_brace : ~ In "{"%char (la P).
Proof. rewrite la_app. intros I. apply in_app_or in I as [I|I]; [exact (proj1 (proj2 HO) I)|revert I; not_in]. Qed.

Lemma broken_up_three m : broken_up isPrint t m = three ind (P ++ String "{" (join ", " (map entry_text (bodies m)) ++ "}" ++ newline)).
Proof.
  unfold broken_up, source, GoSyntax, ReplaceAll, three. replace (t_head t ++ ("map[string]string{" ++ join ", " (map (fun kv => Quote isPrint (fst kv) ++ ":" ++ Quote isPrint (snd kv)) m) ++ "}") ++ newline)%string
    with (P ++ String "{" (join ", " (map entry_text (bodies m)) ++ "}" ++ newline))%string; [reflexivity|].
  unfold bodies. rewrite map_map.
  replace (map (fun kv => entry_text (e (fst kv), e (snd kv))) m) with (map (fun kv => Quote isPrint (fst kv) ++ ":" ++ Quote isPrint (snd kv))%string m).
  - generalize (join ", " (map (fun kv => Quote isPrint (fst kv) ++ ":" ++ Quote isPrint (snd kv))%string m)). intros x. rewrite !sapp_assoc. reflexivity.
  - apply map_ext. intros [k v]. rewrite !Quote_quoted. unfold quoted, entry_text. cbn [fst snd append]. repeat (rewrite ?sapp_assoc; cbn [append]). reflexivity.
Qed.

(** What a declaration with this beginning has between the braces. *)
Lemma declared_body m' x : declares pkg (P ++ String "{" x) m' -> exists body, elements body m' /\ (body ++ String "}" newline)%string = x.
Proof.
  intros (a' & b' & body & E & Ra & Rb & El). destruct HH as (a & b & Ra' & Rb' & Eh). exists body. split; [exact El|]. rewrite Eh in E. repeat rewrite sapp_assoc in E.
  apply (remarks_unique _ Ra') in E; try assumption; try discriminate. cbn in E. injection E as E.
  assert (E2 : (String (chr 10) b ++ "var mappings = " ++ "map[string]string" ++ String "{" x)%string =
    (String (chr 10) b' ++ "var mappings = map[string]string{" ++ body ++ "}" ++ newline)%string).
  { eapply app_len; [|exact E]. reflexivity. }
  cbn in E2. injection E2 as E2. apply (remarks_unique _ Rb') in E2; try assumption; try discriminate. cbn in E2. injection E2 as E2. symmetry. exact E2.
Qed.

Lemma not_declared m : ~ good m -> forall m', ~ declares pkg (broken_up isPrint t m) m'.
Proof.
  intros N m' D. rewrite broken_up_three in D. destruct (good_or m) as [G|[(v & m2 & E)|(O & m1 & k & v & m2 & E & F & Uk & Uv & B)]]; [contradiction| |].
  - rewrite E in D. destruct (joined [] ", " v m2 ("}" ++ newline)) as (z & J & _). cbn [app] in J. rewrite J in D. clear J.
    destruct (bad_key ind (proj2 (proj2 HO)) P P_quote P_brace [] ", " (String ":" (String Q (v ++ String Q z)))) as (k' & t' & J & U & I);
      [constructor|exact I|apply units_plain; cbn; intros c [<-|[<-|[]]]; split; discriminate|right; auto|].
    rewrite J in D. destruct (declared_body _ _ D) as (body & El & X).
    eapply (no_parse ind (proj2 (proj2 HO)) [] (Forall_nil _) body m' nl newline (k' ++ String Q t')%string); [apply stuck_key; assumption|apply white_break, (proj2 (proj2 HO))|exact El|exact X].
  - rewrite E in D. destruct (joined m1 k v m2 ("}" ++ newline)) as (z & J & _). rewrite J in D. clear J.
    assert (L : Forall lit_entry m1) by (pose proof (bodies_literal m) as L; rewrite E in L; apply Forall_app in L; apply L).
    assert (O1 : first_ok m1) by (rewrite E in O; destruct m1 as [|[? ?] ?]; [exact I|exact O]).
    assert (O2 : first_ok (m1 ++ [(k, v)])) by (rewrite E in O; destruct m1 as [|[? ?] ?]; exact O).
    destruct B as [B|[K B]].
    + destruct (bad_key ind (proj2 (proj2 HO)) P P_quote P_brace m1 k (String ":" (String Q (v ++ String Q z))) F O1 Uk (or_introl B)) as (k' & t' & J & U & I).
      rewrite J in D. destruct (declared_body _ _ D) as (body & El & X).
      eapply (no_parse ind (proj2 (proj2 HO)) m1 L body m' nl newline (k' ++ String Q t')%string); [apply stuck_key; assumption|apply white_break, (proj2 (proj2 HO))|exact El|exact X].
    + destruct (bad_value ind (proj2 (proj2 HO)) P P_quote P_brace m1 k v z F O2 K Uv B) as (v' & t' & J & U & I).
      rewrite J in D. destruct (declared_body _ _ D) as (body & El & X).
      eapply (no_parse ind (proj2 (proj2 HO)) m1 L body m' nl newline (k ++ String Q (String ":" (String Q (v' ++ String Q t'))))%string); [apply stuck_value; assumption|apply white_break, (proj2 (proj2 HO))|exact El|exact X].
Qed.

Lemma declares_intro body m x : elements body m -> x = (body ++ String "}" newline)%string -> declares pkg (P ++ String "{" x) m.
Proof.
  intros El ->. destruct HH as (a & b & Ra & Rb & Eh). exists a, b, body. split; [|auto]. rewrite Eh. repeat rewrite sapp_assoc. reflexivity.
Qed.

Lemma declared m : good m -> declares pkg (broken_up isPrint t m) m.
Proof.
  intros [F O]. rewrite broken_up_three. destruct (exists_last_or m) as [->|(m1 & [k v] & ->)].
  - cbn [bodies map join append]. unfold three. rewrite (RA_skip Q) by exact P_quote. rewrite (RA_skip "{"%char) by exact P_brace.
    match goal with |- declares _ (replace_from ?o ?n 0 (P ++ ?x)) _ => change (declares pkg (replace_from o n 0 (P ++ String "{" ("}" ++ newline))) []) end.
    rewrite (RA_skip Q) by exact P_quote. apply (declares_intro ""); [apply E_end, only_nil|reflexivity].
  - unfold bodies in *. rewrite map_app in *. cbn [map fst snd] in *. destruct (joined (map (fun kv => (e (fst kv), e (snd kv))) m1) (e k) (e v) [] ("}" ++ newline)) as (z & J & Z).
    rewrite J, (Z eq_refl). rewrite (all_fine ind (proj2 (proj2 HO)) P P_quote P_brace) by assumption.
    eapply declares_intro.
    + apply (elements_front ind (proj2 (proj2 HO)) (map (fun kv => (e (fst kv), e (snd kv))) m1) nl m1 k v (e k) (e v)); [apply white_break, (proj2 (proj2 HO))| |apply (literal_qbody isPrint PO)..].
      clear - PO. induction m1 as [|[k v] m1 IH]; cbn [map fst snd]; constructor; [split; apply (literal_qbody isPrint PO)|exact IH].
    + change ("}" ++ newline)%string with (String "}" newline). generalize (String "}" newline). intros y. repeat (rewrite ?sapp_assoc; cbn [append]). reflexivity.
Qed.
End Files.
End Bodies.

(** ** The shipped tables *)

Definition tame_char (c : ascii) : bool := negb ((byte_of c =? 34) || (byte_of c =? 123) || (byte_of c =? 125)).
Definition tameb (s : string) : bool := forallb tame_char (la s) && negb (String.eqb s ", ").
Lemma tameb_tame s : tameb s = true -> ~ broken_inside s /\ s <> ", "%string.
Proof.
  unfold tameb. intros H. apply andb_prop in H as [H N]. rewrite forallb_forall in H. split.
  - assert (X : forall c, tame_char c = false -> In c (la s) -> False) by (intros c F I; specialize (H c I); congruence).
    intros [(x & ->)|[(x & ->)|[(x & y & ->)|(x & ->)]]].
    + apply (X "{"%char eq_refl). rewrite la_app. apply in_or_app. right. now left.
    + apply (X "}"%char eq_refl). now left.
    + apply (X Q eq_refl). rewrite la_app. apply in_or_app. right. now left.
    + apply (X Q eq_refl). rewrite la_app. apply in_or_app. right. now left.
  - apply Bool.negb_true_iff, String.eqb_neq in N. exact N.
Qed.
Lemma tame_table (m : gmap) : forallb (fun kv => tameb (fst kv) && tameb (snd kv)) m = true -> ~ broken_map m.
Proof.
  rewrite forallb_forall. intros H. assert (X : forall k v, In (k, v) m -> (~ broken_inside k /\ k <> ", "%string) /\ ~ broken_inside v /\ v <> ", "%string).
  { intros k v I. specialize (H (k, v) I). cbn in H. apply andb_prop in H as [A B]. split; apply tameb_tame; assumption. }
  intros [(k & v & I & B)|(v & m' & ->)]; [destruct (X k v I); tauto|]. destruct (X _ _ (or_introl eq_refl)). tauto.
Qed.

Lemma nba_tame : ~ broken_map nba_mappings.
Proof. apply tame_table. vm_cast_no_check (eq_refl true). Qed.
Lemma so_tame : ~ broken_map so_mappings.
Proof. apply tame_table. vm_cast_no_check (eq_refl true). Qed.
Lemma contractions_tame : ~ broken_map contraction_mappings.
Proof. apply tame_table. vm_cast_no_check (eq_refl true). Qed.

(** ** The theorems *)

Definition targets : list (string * target) := [("nba", nba_target); ("stackoverflow", so_target); ("contractions", contractions_target)]%string.
Lemma targets_ok pkg t : In (pkg, t) targets -> head_ok t /\ head_of pkg (t_head t).
Proof.
  intros [I|[I|[I|[]]]]; injection I as <- <-.
  - exact (conj nba_ok nba_head).
  - exact (conj so_ok so_head).
  - exact (conj contractions_ok contractions_head).
Qed.

Lemma C66_spoiled_lemma : forall isPrint pkg t m m',
  In (pkg, t) [("nba", nba_target); ("stackoverflow", so_target); ("contractions", contractions_target)]%string ->
  print_ok isPrint -> (forall r, 32 <= r < 127 -> isPrint r = true) -> broken_map m -> ~ declares pkg (broken_up isPrint t m) m'.
Proof.
  intros isPrint pkg t m m' I PO PA B. destruct (targets_ok _ _ I) as [HO HH]. apply (not_declared isPrint PO pkg t HO HH m).
  intros G. exact (good_not_broken isPrint PA m G B).
Qed.

Lemma C66_refuted_lemma : forall errorf, exists names m, nba_getMappings go_unicode errorf names = (Some m, None) /\
  forall isPrint, print_ok isPrint -> (forall r, 32 <= r < 127 -> isPrint r = true) -> forall m', ~ declares "nba" (broken_up isPrint nba_target m) m'.
Proof.
  intros errorf. exists ["x, }"%string], [("} x", "} x")]%string. split; [vm_compute; reflexivity|]. intros isPrint PO PA m'. apply C66_spoiled_lemma; try assumption; [now left|].
  left. exists "} x"%string, "} x"%string. split; [now left|]. left. right. left. exists " x"%string. reflexivity.
Qed.

Lemma C66_lemma : forall isPrint format_Source file_Write pkg t m,
  In (pkg, t) [("nba", nba_target); ("stackoverflow", so_target); ("contractions", contractions_target)]%string ->
  print_ok isPrint -> formatter_ok format_Source -> (forall s, file_Write s = (s, None)) -> ~ broken_map m ->
  exists file, write isPrint format_Source None file_Write t m = (None, Some file) /\ declares pkg file m.
Proof.
  intros isPrint format_Source file_Write pkg t m I PO F Wr T. destruct (targets_ok _ _ I) as [HO HH].
  assert (G : good isPrint m).
  { destruct (good_or isPrint PO m) as [G|X]; [exact G|]. exfalso. apply T. apply (broken_or_good isPrint PO). intros [F' O']. 
    destruct X as [(v & m' & E)|(_ & m1 & k & v & m2 & E & _ & _ & _ & B)]; rewrite E in F', O'; [exact (O' eq_refl)|].
    apply Forall_app in F' as [_ F']. inversion F' as [|? ? (K & V & N) _]; subst. cbn [fst snd] in *.
    destruct B as [B|[_ [B|B]]]; [exact (fine_not_spoiled _ K B)|exact (fine_not_spoiled _ V B)|exact (N B)]. }
  destruct (F _ _ _ (declared isPrint PO pkg t HO HH m G)) as (o & E & D). unfold write. rewrite E, Wr. eauto.
Qed.

Lemma C66_shipped_lemma : forall isPrint format_Source file_Write pkg t m,
  In (pkg, t, m) [("nba", nba_target, nba_mappings); ("stackoverflow", so_target, so_mappings); ("contractions", contractions_target, contraction_mappings)]%string ->
  print_ok isPrint -> formatter_ok format_Source -> (forall s, file_Write s = (s, None)) ->
  exists file, write isPrint format_Source None file_Write t m = (None, Some file) /\ declares pkg file m.
Proof.
  intros isPrint format_Source file_Write pkg t m I PO F Wr. destruct I as [I|[I|[I|[]]]]; injection I as <- <- <-; apply C66_lemma; try assumption.
  - now left.
  - exact nba_tame.
  - right. now left.
  - exact so_tame.
  - right. right. now left.
  - exact contractions_tame.
Qed.
