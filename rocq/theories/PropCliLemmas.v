(** * PropCliLemmas: lemmas behind C48 - C55 and C59. *)

From Coq Require Import ZArith DecimalString.
From Verif Require Import Base Utf8 Unicode UnicodeData Token Stream StreamSpec Tokenizer Html Words Scanner Cli CliSpec StreamProofs TokenProofs FilterProofs
  PropStreamLemmas ScannerProofs CliProofs.
Local Open Scope string_scope.

(* ------------------------------------------------------------------ *)
(** ** setInput *)

Lemma piped_spec mode : N.eqb (N.land mode mode_char_device) 0 = negb (N.testbit mode 21).
Proof.
  change mode_char_device with (2 ^ 21)%N. destruct (N.eqb_spec (N.land mode (2 ^ 21)) 0) as [E|E].
  - assert (H : N.testbit (N.land mode (2 ^ 21)) 21 = false) by (rewrite E; apply N.bits_0). rewrite N.land_spec, N.pow2_bits_true, Bool.andb_true_r in H. rewrite H. reflexivity.
  - destruct (N.testbit mode 21) eqn:H; [reflexivity|]. exfalso. apply E. apply N.bits_inj. intros k. rewrite N.land_spec, N.pow2_bits_eqb, N.bits_0.
    destruct (N.eqb_spec 21 k) as [<-|]; [rewrite H; reflexivity|apply Bool.andb_false_r].
Qed.

Lemma C48_lemma (f : fsys) (c : config) (mode : N) (filein : string) : Filein c = None ->
  (forall i, filein <> "" -> readable f filein i -> ~ piped mode ->
     setInput f c mode filein = (None, mkCfg (cHTML c) (cCount c) (cLines c) (cFilters c) (Some i) (Fileout c) false (Pipedout c) (Reader c) (Writer c))) /\
  (filein = "" -> piped mode ->
     setInput f c mode filein = (None, mkCfg (cHTML c) (cCount c) (cLines c) (cFilters c) None (Fileout c) true (Pipedout c) (Reader c) (Writer c))) /\
  (filein <> "" -> (forall i, ~ readable f filein i) -> exists e, fs_Open f filein = inr e /\ setInput f c mode filein = (Some e, c)) /\
  (filein = "" -> ~ piped mode -> exists c', setInput f c mode filein = (Some err_no_input, c')) /\
  (forall i, filein <> "" -> readable f filein i -> piped mode -> exists c', setInput f c mode filein = (Some err_two_input, c')).
Proof.
  intros Fi. unfold setInput, piped, readable, seqb. rewrite Fi. rewrite ?piped_spec.
  destruct (String.eqb_spec filein "") as [->|N].
  - repeat split; try congruence.
    + intros _ P. rewrite P. reflexivity.
    + intros _ P. destruct (N.testbit mode 21); [|contradiction]. eexists. reflexivity.
  - repeat split; try congruence.
    + intros i _ [A B] P. unfold fs_Open. rewrite A, B. destruct (N.testbit mode 21); [|contradiction]. reflexivity.
    + intros _ H. unfold fs_Open. destruct (noopen f filein) as [e|]; [exists e; auto|]. destruct (names f filein) as [i|] eqn:E; [exfalso; apply (H i); auto|].
      eexists. split; reflexivity.
    + intros i _ [A B] P. unfold fs_Open. rewrite A, B, P. eexists. reflexivity.
Qed.

(* ------------------------------------------------------------------ *)
(** ** setFilters *)

Set Default Proof Using "Type".
Section Filters.
Variable Fold Expand Tags : Filter.
Variable Stem : string -> Filter.
Variable isPrint : N -> bool.
Variable prog : string.
Notation setFilters := (setFilters Fold Expand Tags Stem isPrint prog).
Notation filters_of := (filters_of Fold Expand Tags Stem).
Notation stands_for := (stands_for Fold Expand Tags Stem).

Lemma filter_arg a : In a filter_args \/ (~ In a filter_args /\ assoc a (filterMap Fold Expand Tags Stem) = None).
Proof.
  clear isPrint prog. destruct (in_dec string_dec a filter_args) as [H|H]; [auto|]. right. split; [exact H|]. unfold filterMap, filter_args, assoc, seqb in *. cbn [In] in H.
  repeat match goal with |- context [String.eqb a ?x] => destruct (String.eqb_spec a x); [exfalso; apply H; subst; tauto|] end. reflexivity.
Qed.

Lemma lang_known lang : In lang langs \/ (~ In lang langs /\ assoc lang (stemmerMap Stem) = None).
Proof.
  destruct (in_dec string_dec lang langs) as [H|H]; [auto|]. right. split; [exact H|]. unfold stemmerMap. induction langs as [|x l IH]; [reflexivity|].
  cbn [map assoc]. unfold seqb. destruct (String.eqb_spec lang x); [exfalso; apply H; subst; left; reflexivity|]. apply IH. intros I. apply H. right. exact I.
Qed.

Lemma lang_found lang : In lang langs -> assoc lang (stemmerMap Stem) = Some (Stem lang) /\ lang <> "".
Proof. unfold langs. intros H. cbn [In] in H. repeat destruct H as [<-|H]; [..|contradiction]; (split; [reflexivity|discriminate]). Qed.

Lemma filter_step a args c lang : In a filter_args ->
  (a = "-stem" /\ lang <> "" /\ ~ In lang langs /\ setFilters c (a :: args) lang = (Some (err_lang isPrint prog lang), c)) \/
  (exists f, stands_for lang a f /\ setFilters c (a :: args) lang = setFilters (add_filter c f) args lang).
Proof.
  unfold filter_args. intros H. cbn [In] in H. repeat destruct H as [<-|H]; [..|contradiction]; try (right; eexists; split; [constructor|reflexivity]).
  destruct (String.eqb_spec lang "") as [->|N].
  - right. exists (Stem "english"). split; [apply SF_stem_default; reflexivity|reflexivity].
  - destruct (lang_known lang) as [K|[K E]].
    + right. exists (Stem lang). split; [apply SF_stem, K|]. cbn [Cli.setFilters]. change (assoc "-stem" (filterMap Fold Expand Tags Stem)) with (Some (Stem "english")). cbv iota beta.
      unfold seqb. destruct (String.eqb_spec lang ""); [contradiction|]. cbn [String.eqb andb negb Ascii.eqb Bool.eqb]. rewrite (proj1 (lang_found lang K)). reflexivity.
    + left. split; [reflexivity|]. split; [exact N|]. split; [exact K|]. cbn [Cli.setFilters]. change (assoc "-stem" (filterMap Fold Expand Tags Stem)) with (Some (Stem "english")). cbv iota beta.
      unfold seqb. destruct (String.eqb_spec lang ""); [contradiction|]. cbn [String.eqb andb negb Ascii.eqb Bool.eqb]. rewrite E. reflexivity.
Qed.

Lemma with_filters_nil c : with_filters c [] = c.
Proof. destruct c. unfold with_filters. cbn. rewrite app_nil_r. reflexivity. Qed.
Lemma with_filters_add c f fs : with_filters (add_filter c f) fs = with_filters c (f :: fs).
Proof. destruct c. unfold with_filters, add_filter. cbn. rewrite <- app_assoc. reflexivity. Qed.

Lemma C49_lemma args lang : forall c,
  (unknown_language args lang -> exists c', setFilters c args lang = (Some (err_lang isPrint prog lang), c')) /\
  (~ unknown_language args lang -> exists fs, filters_of lang args fs /\ setFilters c args lang = (None, with_filters c fs)).
Proof.
  induction args as [|a args IH]; intros c.
  - split; [intros [[] _]|]. intros _. exists []. split; [constructor|]. rewrite with_filters_nil. reflexivity.
  - destruct (filter_arg a) as [H|[H E]].
    + destruct (filter_step a args c lang H) as [(-> & N & K & S)|(f & F & S)]; rewrite S.
      * split; [intros _; eexists; reflexivity|]. intros U. exfalso. apply U. split; [left; reflexivity|auto].
      * destruct (IH (add_filter c f)) as [I1 I2]. split.
        -- intros (I & N & K). destruct I as [->|I]; [|apply I1; repeat split; assumption]. exfalso. inversion F; subst; auto.
        -- intros U. destruct I2 as (fs & FO & E); [intros (I & N & K); apply U; split; [right; exact I|auto]|].
           exists (f :: fs). split; [apply FO_filter; assumption|]. rewrite E, with_filters_add. reflexivity.
    + cbn [Cli.setFilters]. rewrite E. destruct (IH c) as [I1 I2]. split.
      * intros (I & N & K). destruct I as [->|I]; [exfalso; apply H; unfold filter_args; cbn; tauto|]. apply I1. repeat split; assumption.
      * intros U. destruct I2 as (fs & FO & E2); [intros (I & N & K); apply U; split; [right; exact I|auto]|].
        exists fs. split; [apply FO_other; assumption|exact E2].
Qed.

Lemma stands_in lang a f : stands_for lang a f -> In a filter_args.
Proof. clear isPrint prog. destruct 1; unfold filter_args; cbn; tauto. Qed.

Lemma stands_inj lang a f f' : stands_for lang a f -> stands_for lang a f' -> f = f'.
Proof.
  intros H H'. destruct H; inversion H'; subst; auto; try (exfalso; cbn [In] in *; intuition discriminate).
Qed.

Lemma filters_of_inj lang args fs : filters_of lang args fs -> forall fs', filters_of lang args fs' -> fs = fs'.
Proof.
  induction 1 as [|a f args fs S F IH|a args fs N F IH]; intros fs' H'; inversion H'; subst; auto.
  - f_equal; [eapply stands_inj; eassumption|auto].
  - exfalso. apply stands_in in S. contradiction.
  - exfalso. match goal with S : stands_for _ a _ |- _ => apply stands_in in S end. contradiction.
Qed.

(* ------------------------------------------------------------------ *)
(** ** Flags *)

Lemma formal_names n k : In (n, k) formal -> exists c r, n = String c r /\ Ascii.eqb c "-" = false /\ Ascii.eqb c "=" = false /\
  cut_name n = (n, None) /\ (forall v, cut_name (n ++ "=" ++ v) = (n, Some v)) /\ assoc n formal = Some k /\ (k = KString -> ~ In ("-" ++ n) filter_args) /\
  ~ In ("--" ++ n) filter_args /\ (forall v, ~ In ("-" ++ n ++ "=" ++ v) filter_args) /\ (forall v, ~ In ("--" ++ n ++ "=" ++ v) filter_args) /\
  (In ("-" ++ n) filter_args -> k = KBool).
Proof.
  unfold formal. intros H. cbn [In] in H. repeat destruct H as [H|H]; [..|contradiction]; injection H as <- <-;
    (eexists _, _; repeat split; try reflexivity; try discriminate; intros; unfold not; intros;
     repeat match goal with H : In _ _ |- _ => cbn in H | H : _ \/ _ |- _ => destruct H as [H|H] | H : False |- _ => destruct H end; try reflexivity; discriminate).
Qed.

Lemma flag_Parse_flag d c r value args nm k : d = "-" \/ d = "--" -> Ascii.eqb c "-" = false -> Ascii.eqb c "=" = false ->
  cut_name (String c r) = (nm, value) -> assoc nm formal = Some k ->
  flag_Parse ((d ++ String c r) :: args) =
    match k with
    | KBool => match ParseBool (match value with Some v => v | None => "true" end) with
               | None => None
               | Some b => option_map (cons (nm, VBool b)) (flag_Parse args)
               end
    | KString => match value with
                 | Some v => option_map (cons (nm, VString v)) (flag_Parse args)
                 | None => match args with
                           | [] => None
                           | v :: args'' => option_map (cons (nm, VString v)) (flag_Parse args'')
                           end
                 end
    end.
Proof.
  intros [-> | ->] D Q Cn As; cbn [String.append flag_Parse].
  - assert (E : seqb (String "-" (String c r)) "--" = false) by (unfold seqb; cbn [String.eqb Ascii.eqb Bool.eqb andb]; rewrite D; reflexivity).
    rewrite E, D, D, Q. cbn [orb]. rewrite Cn, As. reflexivity.
  - assert (E : seqb (String "-" (String "-" (String c r))) "--" = false) by reflexivity.
    rewrite E. cbn [Ascii.eqb Bool.eqb andb]. rewrite D, Q. cbn [orb]. rewrite Cn, As. reflexivity.
Qed.

Lemma stops_parses args : stops args -> flag_Parse args = Some [].
Proof.
  destruct args as [|a args]; [reflexivity|]. intros [->|[->|H]]; [reflexivity|reflexivity|]. destruct a as [|c a]; [reflexivity|].
  assert (Ascii.eqb c "-" = false) as D. { apply Ascii.eqb_neq. intros ->. apply (H a). reflexivity. }
  cbn [flag_Parse]. destruct c as [[|] [|] [|] [|] [|] [|] [|] [|]]; try reflexivity. discriminate D.
Qed.

Lemma plain_parses args set : plain args set -> flag_Parse args = Some set.
Proof.
  induction 1 as [args S|n args set F P IH|n args set F N P IH|d n v b args set Hd F N B P IH|d n v args set Hd F N P IH|d n v args set Hd F P IH];
    [apply stops_parses, S|..]; destruct (formal_names _ _ F) as (c & r & -> & D & Q & Cn & Cv & As & _).
  - rewrite (flag_Parse_flag "-" c r None args _ KBool (or_introl eq_refl) D Q Cn As), IH. reflexivity.
  - rewrite (flag_Parse_flag "--" c r None args _ KBool (or_intror eq_refl) D Q Cn As), IH. reflexivity.
  - specialize (Cv v). cbn [String.append] in *. rewrite (flag_Parse_flag d c _ _ args _ KBool Hd D Q Cv As), IH, B. reflexivity.
  - rewrite (flag_Parse_flag d c r None (v :: args) _ KString Hd D Q Cn As), IH. reflexivity.
  - specialize (Cv v). cbn [String.append] in *. rewrite (flag_Parse_flag d c _ _ args _ KString Hd D Q Cv As), IH. reflexivity.
Qed.

Lemma filters_of_other lang a args fs : ~ In a filter_args -> filters_of lang (a :: args) fs -> filters_of lang args fs.
Proof. intros N FO. inversion FO; subst; [exfalso; apply N; eapply stands_in; eassumption|assumption]. Qed.

Lemma plain_select lang args set : plain args set -> forall fs, filters_of lang args fs -> flags_select Fold Expand Tags Stem lang set fs.
Proof.
  induction 1 as [args S O|n args set F P IH|n args set F N P IH|d n v b args set Hd F N B P IH|d n v args set Hd F N P IH|d n v args set Hd F P IH]; intros fs FO.
  - assert (fs = []) as ->; [|constructor]. clear S. revert fs FO. induction args as [|a args IH]; intros fs FO; [inversion FO; reflexivity|].
    apply IH; [intros b Hb; apply O; right; exact Hb|]. eapply filters_of_other; [apply O; left; reflexivity|exact FO].
  - inversion FO; subst; [apply FS_filter; auto|apply FS_other; auto].
  - destruct (formal_names _ _ F) as (_ & _ & _ & _ & _ & _ & _ & _ & _ & K2 & _). apply FS_other; [exact N|]. apply IH. eapply filters_of_other; eassumption.
  - destruct (formal_names _ _ F) as (_ & _ & _ & _ & _ & _ & _ & _ & _ & _ & K1 & K2 & _). apply FS_other; [exact N|]. apply IH. eapply filters_of_other; [|exact FO].
    destruct Hd as [-> | ->]; auto.
  - destruct (formal_names _ _ F) as (_ & _ & _ & _ & _ & _ & _ & _ & K1 & K2 & _). specialize (K1 eq_refl). apply FS_other; [exact K1|]. apply IH.
    eapply filters_of_other; [exact N|]. eapply filters_of_other; [|exact FO]. destruct Hd as [-> | ->]; auto.
  - destruct (formal_names _ _ F) as (_ & _ & _ & _ & _ & _ & _ & _ & K0 & _ & K1 & K2 & _). apply FS_other; [auto|]. apply IH. eapply filters_of_other; [|exact FO].
    destruct Hd as [-> | ->]; auto.
Qed.

(** The value of a flag. *)
Lemma assoc_app {A} x (l m : list (string * A)) : assoc x (l ++ m) = match assoc x l with Some v => Some v | None => assoc x m end.
Proof. induction l as [|[k v] l IH]; [reflexivity|]. cbn. destruct (seqb x k); [reflexivity|exact IH]. Qed.

Lemma filter_flags args set n : plain args set -> In ("-" ++ n) filter_args ->
  assoc n (rev set) = (if in_dec string_dec ("-" ++ n) args then Some (VBool true) else None).
Proof.
  intros P Fa. assert (Out : forall a args', ~ In a filter_args -> (if in_dec string_dec ("-" ++ n) (a :: args') then Some (VBool true) else None) =
    (if in_dec string_dec ("-" ++ n) args' then Some (VBool true) else None)).
  { intros a args' N. destruct (in_dec string_dec ("-" ++ n) (a :: args')) as [[->|I]|I], (in_dec string_dec ("-" ++ n) args') as [J|J]; try reflexivity; try contradiction.
    exfalso. apply I. right. exact J. }
  assert (Ne : forall m (v : fvalue) l, ~ In ("-" ++ m) filter_args -> assoc n (rev ((m, v) :: l)) = assoc n (rev l)).
  { intros m v l N. cbn [rev]. rewrite assoc_app. destruct (assoc n (rev l)); [reflexivity|]. cbn. unfold seqb. destruct (String.eqb_spec n m) as [->|]; [contradiction|reflexivity]. }
  induction P as [args S O|m args set F P IH|m args set F N P IH|d m v b args set Hd F N B P IH|d m v args set Hd F N P IH|d m v args set Hd F P IH].
  - destruct (in_dec string_dec ("-" ++ n) args) as [I|]; [|reflexivity]. exfalso. exact (O _ I Fa).
  - destruct (in_dec string_dec ("-" ++ m) filter_args) as [Fm|Fm]; [|rewrite Ne, IH, Out by exact Fm; reflexivity].
    cbn [rev]. rewrite assoc_app, IH. destruct (in_dec string_dec ("-" ++ n) args) as [I|I], (in_dec string_dec ("-" ++ n) (("-" ++ m) :: args)) as [J|J]; try reflexivity.
    + exfalso. apply J. right. exact I.
    + destruct J as [J|J]; [|contradiction]. cbn [String.append] in J. injection J as ->. cbn. unfold seqb. rewrite String.eqb_refl. reflexivity.
    + cbn. unfold seqb. destruct (String.eqb_spec n m) as [->|]; [exfalso; apply J; left; reflexivity|reflexivity].
  - destruct (formal_names _ _ F) as (_ & _ & _ & _ & _ & _ & _ & _ & _ & K2 & _). rewrite Ne, IH, Out by assumption. reflexivity.
  - destruct (formal_names _ _ F) as (_ & _ & _ & _ & _ & _ & _ & _ & _ & _ & K1 & K2 & _). rewrite Ne, IH, Out; [reflexivity| |exact N]. destruct Hd as [-> | ->]; auto.
  - destruct (formal_names _ _ F) as (_ & _ & _ & _ & _ & _ & _ & _ & K1 & K2 & _). specialize (K1 eq_refl). rewrite Ne, IH, Out, Out; [reflexivity|exact N| |exact K1]. destruct Hd as [-> | ->]; auto.
  - destruct (formal_names _ _ F) as (_ & _ & _ & _ & _ & _ & _ & _ & K0 & _ & K1 & K2 & _). rewrite Ne, IH, Out; [reflexivity| |auto]. destruct Hd as [-> | ->]; auto.
Qed.

Lemma C50_plain args set lang c : plain args set -> flag_Parse args = Some set /\
  (forall n, In ("-" ++ n) filter_args -> (get_bool n set = true <-> In ("-" ++ n) args)) /\
  (~ unknown_language args lang -> exists fs, flags_select Fold Expand Tags Stem lang set fs /\ setFilters c args lang = (None, with_filters c fs)).
Proof.
  intros P. split; [apply plain_parses, P|]. split.
  - intros n Fa. unfold get_bool. rewrite (filter_flags _ _ n P Fa). destruct (in_dec string_dec ("-" ++ n) args); split; auto; discriminate.
  - intros U. destruct (proj2 (C49_lemma args lang c) U) as (fs & FO & E). exists fs. split; [|exact E].
    eapply plain_select; eassumption.
Qed.
End Filters.
Unset Default Proof Using.

(* ------------------------------------------------------------------ *)
(** ** Preservation of what writing does not touch *)

Section Keep.
Variable w : writer.
Variable size : nat.
Variable direct : bool.
Variable I : wstate w -> Prop.
Hypothesis K : forall ws v r ws', I ws -> wwrite w ws v = (r, ws') -> I ws'.

Lemma Flush_keep b e b' : I (bws b) -> Flush w b = (e, b') -> I (bws b').
Proof.
  intros H. unfold Flush. destruct (bwerr b); [intros E; injection E as <- <-; exact H|].
  destruct (Nat.eqb _ 0); [intros E; injection E as <- <-; exact H|].
  destruct (wwrite w (bws b) (bbuf b)) as [[n err] ws'] eqn:Wr. apply (K _ _ _ _ H) in Wr. intros E.
  destruct err; [injection E as <- <-; exact Wr|]. destruct (Nat.ltb _ _); injection E as <- <-; exact Wr.
Qed.

Lemma WriteString_keep k : forall b s e b', I (bws b) -> WriteString w size direct k b s = Ret (e, b') -> I (bws b').
Proof.
  induction k as [|k IH]; intros b s e b' H E; cbn [WriteString] in E; [discriminate|].
  destruct (Nat.ltb _ _ && _)%bool.
  - destruct (direct && _)%bool.
    + destruct (wwrite w (bws b) s) as [[n err] ws'] eqn:Wr. apply (K _ _ _ _ H) in Wr. eapply IH; [|exact E]. exact Wr.
    + destruct (Flush w _) as [e1 b1] eqn:F. eapply IH; [|exact E]. eapply Flush_keep; [|exact F]. exact H.
  - destruct (bwerr b); injection E as <- <-; exact H.
Qed.

Lemma WriteByte_keep b c e b' : I (bws b) -> WriteByte w size b c = (e, b') -> I (bws b').
Proof.
  intros H. unfold WriteByte. destruct (bwerr b); [intros E; injection E as <- <-; exact H|].
  destruct (Nat.eqb _ 0).
  - destruct (Flush w b) as [e1 b1] eqn:F. pose proof (Flush_keep _ _ _ H F) as G. intros E. destruct e1; injection E as <- <-; exact G.
  - intros E. injection E as <- <-. exact H.
Qed.

Lemma write_all_keep lines fuel k : forall b s e b', I (bws b) -> write_all w size direct lines fuel k b s = Ret (e, b') -> I (bws b').
Proof.
  induction k as [|k IH]; intros b s e b' H E; cbn [write_all] in E; [discriminate|].
  destruct (Scan fuel s) as [[ok s']| |]; cbn [bind] in E; try discriminate. destruct ok.
  - destruct (Token s') as [t|]; [|discriminate]. destruct (WriteString w size direct fuel b (tvalue t)) as [[e1 b1]| |] eqn:W1; cbn [bind] in E; try discriminate.
    pose proof (WriteString_keep _ _ _ _ _ H W1) as G. destruct e1; [injection E as <- <-; exact G|]. destruct lines; [|eapply IH; eassumption].
    destruct (WriteByte w size b1 newline) as [e2 b2] eqn:W2. pose proof (WriteByte_keep _ _ _ _ G W2) as G2.
    destruct e2; [injection E as <- <-; exact G2|eapply IH; eassumption].
  - destruct (Err s'); [injection E as <- <-; exact H|]. injection E as E. eapply Flush_keep; [exact H|exact E].
Qed.

Lemma write_tokens_keep count lines fuel b s e b' : I (bws b) -> write_tokens w size direct count lines fuel b s = Ret (e, b') -> I (bws b').
Proof.
  intros H E. unfold write_tokens in E. destruct count; [|eapply write_all_keep; eassumption].
  destruct (Count fuel s) as [[[n err] s']| |]; cbn [bind] in E; try discriminate. destruct err; [injection E as <- <-; exact H|].
  destruct (WriteString w size direct fuel b _) as [[e1 b1]| |] eqn:W1; cbn [bind] in E; try discriminate. injection E as E.
  eapply Flush_keep; [|exact E]. eapply WriteString_keep; eassumption.
Qed.
End Keep.

Lemma WriteString_err w size direct k : forall b s e b', WriteString w size direct k b s = Ret (Some e, b') -> bwerr b' = Some e.
Proof.
  induction k as [|k IH]; intros b s e b' E; cbn [WriteString] in E; [discriminate|].
  destruct (Nat.ltb _ _ && _)%bool.
  - destruct (direct && _)%bool.
    + destruct (wwrite w (bws b) s) as [[n err] ws']. eapply IH, E.
    + destruct (Flush w _) as [e1 b1]. eapply IH, E.
  - destruct (bwerr b) eqn:B; [injection E as <- <-; exact B|discriminate E].
Qed.

(** ** write_tokens *)

Lemma write_tokens_spec w acc size direct count lines s l e s' ws : accepts w acc -> 0 < size -> Emits s l e s' -> exists err b',
  Returns (fun fuel => write_tokens w size direct count lines fuel (mkBW EmptyString None ws) s) (err, b') /\
  ((exists e1 p x y, err = Some e1 /\ refuses w e1 /\ printed count lines l p /\ p = (x ++ y)%string /\ acc (bws b') = (acc ws ++ x)%string /\ (count = true -> e = None)) \/
   (e = None /\ err = None /\ exists p, printed count lines l p /\ acc (bws b') = (acc ws ++ p)%string) \/
   (exists e0 x y, e = Some e0 /\ err = Some e0 /\ (if count then "" else listing lines l) = (x ++ y)%string /\ String.length y <= size /\ acc (bws b') = (acc ws ++ x)%string)).
Proof.
  intros A S0 E. destruct count.
  - destruct (C04_lemma s l e s' E) as (_ & _ & s3 & _ & _ & [m Hm] & _). destruct e as [e0|].
    + exists (Some e0), (mkBW EmptyString None ws). split.
      * exists m. intros k Hk. unfold write_tokens. rewrite Hm by lia. reflexivity.
      * right; right. exists e0, "", "". cbn. rewrite sapp_nil_r'. repeat split; lia.
    + set (p := (itoa (List.length l) ++ String newline EmptyString)%string).
      assert (Pp : printed true lines l p) by (exists (itoa (List.length l)); split; [apply itoa_decimal|reflexivity]).
      assert (F0 : fine w size (mkBW EmptyString None ws)) by (split; [reflexivity|cbn; lia]).
      destruct (WriteString_spec w acc A size S0 direct _ (mkBW EmptyString None ws) p (Nat.lt_succ_diag_r _) F0) as (e1 & b1 & [k1 R1] & C).
      assert (R : forall k, Nat.max m k1 <= k -> write_tokens w size direct true lines k (mkBW EmptyString None ws) s = Ret (Flush w b1)).
      { intros k Hk. unfold write_tokens. rewrite Hm by lia. cbn [bind]. fold p. rewrite R1 by lia. reflexivity. }
      destruct C as [(-> & F1 & T1)|(e1' & -> & Rf & x & y & Exy & Ac)].
      * destruct (Flush_spec w acc A size S0 b1 (proj1 F1)) as (e2 & b2 & Fl & C2). rewrite Fl in R. exists e2, b2. split; [exists (Nat.max m k1); exact R|].
        unfold total in T1. cbn [bws bbuf] in T1. rewrite sapp_nil_r' in T1.
        destruct C2 as [(-> & _ & _ & Ac)|(e3 & -> & _ & Rf & x & y & Exy & Ac)].
        -- right; left. split; [reflexivity|]. split; [reflexivity|]. exists p. split; [exact Pp|]. rewrite Ac. exact T1.
        -- left. destruct (WriteString_grows w acc A size direct _ _ _ _ _ (R1 k1 (le_n _))) as [z Z]. cbn [bws] in Z.
           exists e3, p, (z ++ x)%string, y. rewrite Z, sapp_assoc in T1. apply sapp_inv_head in T1.
           split; [reflexivity|]. split; [exact Rf|]. split; [exact Pp|]. split; [rewrite <- T1, Exy, sapp_assoc; reflexivity|]. split; [rewrite Ac, Z, sapp_assoc; reflexivity|auto].
      * exists (Some e1'), b1. pose proof (WriteString_err _ _ _ _ _ _ _ _ (R1 k1 (le_n _))) as Be. split.
        -- exists (Nat.max m k1). intros k Hk. rewrite R by exact Hk. unfold Flush. rewrite Be. reflexivity.
        -- left. exists e1', p, x, y. cbn [bbuf String.append bws] in Exy, Ac. auto 8.
  - assert (F0 : fine w size (mkBW EmptyString None ws)) by (split; [reflexivity|cbn; lia]).
    destruct (write_all_spec w acc A size S0 direct lines s l e s' E _ F0) as (err & b' & R & We). exists err, b'. split; [apply Returns2_diag in R; exact R|].
    destruct We as [(e1 & -> & Rf & x & y & Exy & Ac)|[(-> & -> & Ac)|(e0 & -> & -> & F & T & z & Z)]].
    + left. exists e1, (listing lines l), x, y. cbn [bbuf String.append bws] in Exy, Ac. repeat split; auto. discriminate.
    + right; left. split; [reflexivity|]. split; [reflexivity|]. exists (listing lines l). split; [reflexivity|]. rewrite Ac. unfold total. cbn [bws bbuf]. rewrite sapp_nil_r'. reflexivity.
    + right; right. unfold total in T. cbn [bws bbuf] in T, Z. rewrite sapp_nil_r' in T. rewrite Z, sapp_assoc in T. apply sapp_inv_head in T.
      exists e0, z, (bbuf b'). split; [reflexivity|]. split; [reflexivity|]. split; [symmetry; exact T|]. split; [apply F|exact Z].
Qed.

(* ------------------------------------------------------------------ *)
(** ** execute *)

Section Exec.
Variable U : unicode.
Variable scan : oracle.
Variable parse : reader -> hparser.
Variable out : writer.
Variable acc : wstate out -> string.
Hypothesis A : accepts out acc.
Variable dk : disk.
Variable direct : bool.

Lemma sfirst_length n v : String.length (sfirst n v) <= String.length v.
Proof. revert v. induction n as [|n IH]; intros [|c v]; cbn; try lia. specialize (IH v). lia. Qed.

Lemma substring_sfirst n v : substring 0 (String.length (sfirst n v)) v = sfirst n v.
Proof. revert v. induction n as [|n IH]; intros [|c v]; cbn; [reflexivity|reflexivity|reflexivity|f_equal; apply IH]. Qed.

Lemma target_accepts t : accepts (target_writer out dk t) (written acc t).
Proof.
  intros wo v n err wo' E. cbn [wwrite target_writer] in E. destruct t as [|i].
  - destruct (wwrite out (stdout out wo) v) as [[n1 e1] o] eqn:Wr. injection E as <- <- <-. cbn [written stdout]. apply (A _ _ _ _ _ Wr).
  - unfold file_Write in E. destruct (dk i (data (fs out wo) i) v) as [[m e]|].
    + injection E as <- <- <-. split; [apply sfirst_length|]. split; [discriminate|]. cbn [written fs set_data data]. rewrite Nat.eqb_refl, substring_sfirst. reflexivity.
    + injection E as <- <- <-. split; [lia|]. split; [reflexivity|]. cbn [written fs set_data data]. rewrite Nat.eqb_refl, substring_0_full. reflexivity.
Qed.

Lemma target_refuses_spec t e : refuses (target_writer out dk t) e -> target_refuses out dk t e.
Proof.
  intros (wo & v & n & wo' & E). cbn [wwrite target_writer] in E. destruct t as [|i]; cbn.
  - destruct (wwrite out (stdout out wo) v) as [[n1 e1] o] eqn:Wr. injection E as -> -> _. eexists _, _, _, _. exact Wr.
  - unfold file_Write in E. destruct (dk i (data (fs out wo) i) v) as [[m e']|] eqn:D; [|discriminate]. injection E as _ -> _. eauto.
Qed.

Lemma only_target_refl t (wo : world out) : only_target t wo wo.
Proof. unfold only_target. destruct t; auto. Qed.

Lemma target_only t wo ws v r ws' : only_target t wo ws -> wwrite (target_writer out dk t) ws v = (r, ws') -> only_target t wo ws'.
Proof.
  unfold only_target. intros (H1 & H2 & H3) E. cbn [wwrite target_writer] in E. destruct t as [|i].
  - destruct (wwrite out (stdout out ws) v) as [r1 o]. injection E as <- <-. cbn [stdin stdin_mode fs]. auto.
  - destruct H3 as (H3 & H4 & H5). unfold file_Write in E.
    destruct (dk i (data (fs out ws) i) v) as [[m e]|]; injection E as <- <-; cbn [stdin stdin_mode fs stdout set_data names data]; repeat split; auto;
      intros j Hj; destruct (Nat.eqb_spec j i); [contradiction|auto|contradiction|auto].
Qed.

Lemma execute_spec wo c src n tgt size l e s' : Reader c = Some (src, n) -> Writer c = Some (tgt, size) -> (0 < size)%Z ->
  Emits (ApplyFilters (cFilters c) (input_tokens U scan parse (cHTML c) (reader_of out wo src))) l e s' ->
  exists err wo', Returns (fun fuel => execute U scan parse out dk direct fuel wo c) (err, wo') /\ only_target tgt wo wo' /\
  ((exists e1 p x y, err = Some e1 /\ (target_refuses out dk tgt e1) /\ printed (cCount c) (cLines c) l p /\ p = (x ++ y)%string /\
      written acc tgt wo' = (written acc tgt wo ++ x)%string /\ (cCount c = true -> e = None)) \/
   (e = None /\ err = None /\ exists p, printed (cCount c) (cLines c) l p /\ written acc tgt wo' = (written acc tgt wo ++ p)%string) \/
   (exists e0 x y, e = Some e0 /\ err = Some e0 /\ (if cCount c then "" else listing (cLines c) l) = (x ++ y)%string /\
      String.length y <= Z.to_nat size /\ written acc tgt wo' = (written acc tgt wo ++ x)%string)).
Proof.
  intros Re Wr Sz E.
  destruct (write_tokens_spec (target_writer out dk tgt) (written acc tgt) (Z.to_nat size) direct (cCount c) (cLines c) _ l e s' wo (target_accepts tgt) ltac:(lia) E)
    as (err & b' & [m R] & C).
  exists err, (bws b'). split.
  - exists m. intros k Hk. unfold execute. rewrite Re, Wr. specialize (R k Hk). unfold ApplyFilters, input_tokens in R. rewrite R. reflexivity.
  - split.
    + eapply (write_tokens_keep (target_writer out dk tgt) _ _ (only_target tgt wo)); [intros ws v r ws' H1 H2; eapply target_only; eassumption| |exact (R m (le_n _))].
      apply only_target_refl.
    + destruct C as [(e1 & p & x & y & -> & Rf & Pp & Exy & Ac & Ct)|[C|C]]; [|auto|auto]. left. exists e1, p, x, y. apply target_refuses_spec in Rf. auto 8.
Qed.

Lemma C51_lemma wo c src n tgt size l : Reader c = Some (src, n) -> Writer c = Some (tgt, size) -> (0 < size)%Z ->
  Yields (ApplyFilters (cFilters c) (input_tokens U scan parse (cHTML c) (reader_of out wo src))) l ->
  exists err wo' s, Returns (fun fuel => execute U scan parse out dk direct fuel wo c) (err, wo') /\ only_target tgt wo wo' /\
    printed (cCount c) (cLines c) l s /\
    match err with
    | None => written acc tgt wo' = (written acc tgt wo ++ s)%string
    | Some e => target_refuses out dk tgt e /\ exists x y, s = (x ++ y)%string /\ written acc tgt wo' = (written acc tgt wo ++ x)%string
    end.
Proof.
  intros Re Wr Sz (s' & E & _). destruct (execute_spec wo c src n tgt size l None s' Re Wr Sz E) as (err & wo' & R & O & C).
  destruct C as [(e1 & p & x & y & -> & Rf & Pp & Exy & Ac & _)|[(_ & -> & p & Pp & Ac)|(e0 & x & y & C & _)]]; [| |discriminate].
  - exists (Some e1), wo', p. split; [exact R|]. split; [exact O|]. split; [exact Pp|]. eauto 6.
  - exists None, wo', p. auto.
Qed.

Lemma C52_lemma wo c src n tgt size l e : Reader c = Some (src, n) -> Writer c = Some (tgt, size) -> (0 < size)%Z ->
  Fails (ApplyFilters (cFilters c) (input_tokens U scan parse (cHTML c) (reader_of out wo src))) l e ->
  exists e' wo' x y, Returns (fun fuel => execute U scan parse out dk direct fuel wo c) (Some e', wo') /\ only_target tgt wo wo' /\
    (if cCount c then "" else listing (cLines c) l) = (x ++ y)%string /\ written acc tgt wo' = (written acc tgt wo ++ x)%string /\
    ((e' = e /\ String.length y <= Z.to_nat size) \/ (target_refuses out dk tgt e')).
Proof.
  intros Re Wr Sz (s' & E). destruct (execute_spec wo c src n tgt size l (Some e) s' Re Wr Sz E) as (err & wo' & R & O & C).
  destruct C as [(e1 & p & x & y & -> & Rf & Pp & Exy & Ac & Ct)|[(C & _)|(e0 & x & y & C & -> & Exy & L & Ac)]]; [|discriminate|].
  - exists e1, wo', x, y. destruct (cCount c); [discriminate Ct; reflexivity|]. cbn in Pp. subst p. auto 8.
  - injection C as <-. exists e, wo', x, y. auto 8.
Qed.
End Exec.
