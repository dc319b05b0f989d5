(** * PropCliLemmas2: lemmas about main. *)

From Coq Require Import ZArith.
From Verif Require Import Base Utf8 Unicode UnicodeData Token Stream StreamSpec Tokenizer Html Words Scanner Cli CliSpec StreamProofs TokenProofs FilterProofs
  PropStreamLemmas ScannerProofs CliProofs PropCliLemmas WordsProofs.
Local Open Scope string_scope.

(** ** The setters keep what they do not set *)

Lemma setInput_ok f c mode file c1 : Filein c = None -> setInput f c mode file = (None, c1) ->
  (cHTML c1 = cHTML c /\ cCount c1 = cCount c /\ cLines c1 = cLines c /\ cFilters c1 = cFilters c /\ Fileout c1 = Fileout c /\ Pipedout c1 = Pipedout c /\
   Reader c1 = Reader c /\ Writer c1 = Writer c) /\
  ((Pipedin c1 = true /\ Filein c1 = None /\ file = "") \/ (Pipedin c1 = false /\ file <> "" /\ exists i, Filein c1 = Some i /\ readable f file i)).
Proof.
  intros Fi. unfold setInput, seqb. rewrite Fi. destruct (String.eqb_spec file "") as [->|N].
  - destruct (N.eqb _ 0); cbn [orb negb andb]; intros E; injection E; [intros <-; cbn; auto 12|discriminate].
  - unfold fs_Open, readable. destruct (noopen f file) eqn:E1; [discriminate|]. destruct (names f file) as [i|] eqn:E2; [|discriminate].
    destruct (N.eqb _ 0); cbn [orb negb andb]; intros E; injection E; [discriminate|intros <-; cbn]. split; [auto 12|]. right. split; [reflexivity|]. split; [exact N|]. exists i. auto.
Qed.

Lemma setFilters_ok Fold Expand Tags Stem isPrint prog c args lang c1 : setFilters Fold Expand Tags Stem isPrint prog c args lang = (None, c1) -> exists fs, filters_of Fold Expand Tags Stem lang args fs /\ c1 = with_filters c fs.
Proof.
  intros E. destruct (C49_lemma Fold Expand Tags Stem isPrint prog args lang c) as [A B].
  destruct (in_dec string_dec "-stem" args) as [I|I].
  - destruct (string_dec lang "") as [L|L].
    + destruct B as (fs & F & E2); [intros (_ & H & _); contradiction|]. exists fs. rewrite E in E2. injection E2 as ->. auto.
    + destruct (in_dec string_dec lang langs) as [K|K].
      * destruct B as (fs & F & E2); [intros (_ & _ & H); contradiction|]. exists fs. rewrite E in E2. injection E2 as ->. auto.
      * destruct A as (c' & E2); [repeat split; assumption|]. rewrite E in E2. discriminate.
  - destruct B as (fs & F & E2); [intros (H & _); contradiction|]. exists fs. rewrite E in E2. injection E2 as ->. auto.
Qed.

Lemma setOutput_ok f c o c1 f' : Fileout c = None -> setOutput f c o = (None, c1, f') ->
  (cHTML c1 = cHTML c /\ cCount c1 = cCount c /\ cLines c1 = cLines c /\ cFilters c1 = cFilters c /\ Filein c1 = Filein c /\ Pipedin c1 = Pipedin c /\
   Reader c1 = Reader c /\ Writer c1 = Writer c) /\
  ((Pipedout c1 = true /\ Fileout c1 = None /\ o = "" /\ f' = f) \/ (Pipedout c1 = false /\ o <> "" /\ exists i, Fileout c1 = Some i /\ fs_Create f o = (inl i, f'))).
Proof.
  intros Fo. unfold setOutput, seqb. rewrite Fo. destruct (String.eqb_spec o "") as [->|N].
  - intros E. injection E as <- <-. cbn. auto 12.
  - destruct (fs_Create f o) as [[i|e] f1] eqn:Cr; intros E; [injection E as <- <-|discriminate]. cbn. split; [auto 12|]. right. split; [reflexivity|]. split; [exact N|]. eauto.
Qed.

Lemma setReader_ok f c : ((Pipedin c = true /\ Filein c = None) \/ (Pipedin c = false /\ exists i, Filein c = Some i)) ->
  (exists e c1 i, setReader f c = (Some e, c1) /\ Filein c = Some i /\ stat f i (data f i) = inr e) \/
  (exists src n, setReader f c = (None, set_reader c (src, n)) /\ (4096 <= n <= 1048576)%Z /\
     ((Filein c = None /\ src = Stdin) \/ exists i, Filein c = Some i /\ src = InFile i)).
Proof.
  intros [[P F]|[P [i F]]]; unfold setReader; rewrite P, F; cbn [orb].
  - right. exists Stdin, 65536%Z. unfold NewReaderSize. cbn. repeat split; auto; lia.
  - destruct (stat f i (data f i)) as [z|e] eqn:S.
    + right. exists (InFile i).
      exists (Z.max (if (z <=? 4 * 1024)%Z then (4 * 1024)%Z else if (z <=? 1024 * 1024)%Z then z else (1024 * 1024)%Z) 16). split.
      * destruct (Pipedout c); reflexivity.
      * split; [destruct (Z.leb_spec z (4 * 1024)); [lia|]; destruct (Z.leb_spec z (1024 * 1024)); lia|]. right. eauto.
    + left. exists e. destruct (Pipedout c); eexists; exists i; (split; [reflexivity|auto]).
Qed.

Lemma setWriter_ok c src n : Reader c = Some (src, n) -> (0 < n)%Z ->
  ((Pipedout c = true /\ Fileout c = None) \/ (Pipedout c = false /\ exists i, Fileout c = Some i)) ->
  exists tgt, setWriter c = (None, mkCfg (cHTML c) (cCount c) (cLines c) (cFilters c) (Filein c) (Fileout c) (Pipedin c) (Pipedout c) (Reader c) (Some (tgt, n))) /\
    ((Fileout c = None /\ tgt = Stdout) \/ exists i, Fileout c = Some i /\ tgt = OutFile i).
Proof.
  intros R N [[P F]|[P [i F]]]; unfold setWriter, NewWriterSize; rewrite R, P, F.
  - exists Stdout. destruct (Z.leb_spec n 0); [lia|]. auto.
  - exists (OutFile i). destruct (Z.leb_spec n 0); [lia|]. eauto.
Qed.

Lemma C55_lemma Fold Expand Tags Stem isPrint prog f html count lines mode file args lang o c1 c2 c3 f' :
  setInput f (new_config html count lines) mode file = (None, c1) ->
  setFilters Fold Expand Tags Stem isPrint prog c1 args lang = (None, c2) ->
  setOutput f c2 o = (None, c3, f') ->
  (exists e c4 i, setReader f' c3 = (Some e, c4) /\ Filein c1 = Some i /\ stat f' i (data f' i) = inr e) \/
  (exists c4 c5 src tgt n, setReader f' c3 = (None, c4) /\ setWriter c4 = (None, c5) /\
     Reader c5 = Some (src, n) /\ Writer c5 = Some (tgt, n) /\ (4096 <= n <= 1048576)%Z /\
     ((file = "" /\ src = Stdin) \/ (file <> "" /\ exists i, readable f file i /\ src = InFile i)) /\
     ((o = "" /\ tgt = Stdout /\ f' = f) \/ (o <> "" /\ exists i, tgt = OutFile i /\ fs_Create f o = (inl i, f'))) /\
     cHTML c5 = html /\ cCount c5 = count /\ cLines c5 = lines /\ filters_of Fold Expand Tags Stem lang args (cFilters c5)).
Proof.
  intros E1 E2 E3.
  destruct (setInput_ok f (new_config html count lines) mode file c1 eq_refl E1) as [(K1 & K2 & K3 & K4 & K5 & K6 & K7 & K8) I].
  destruct (setFilters_ok _ _ _ _ _ _ _ _ _ _ E2) as (fs & FO & ->). unfold with_filters in E3.
  apply setOutput_ok in E3; [|cbn; rewrite K5; reflexivity]. cbn [cHTML cCount cLines cFilters Filein Fileout Pipedin Pipedout Reader Writer new_config] in *.
  destruct E3 as [(L1 & L2 & L3 & L4 & L5 & L6 & L7 & L8) O].
  assert (I3 : (Pipedin c3 = true /\ Filein c3 = None) \/ (Pipedin c3 = false /\ exists i, Filein c3 = Some i)).
  { rewrite L5, L6. destruct I as [(A & B & _)|(A & _ & i & B & _)]; [left; auto|right; eauto]. }
  destruct (setReader_ok f' c3 I3) as [(e & c4 & i & S & Fi & St)|(src & n & S & Sz & Sr)].
  - left. exists e, c4, i. rewrite <- L5. auto.
  - right. destruct (setWriter_ok (set_reader c3 (src, n)) src n eq_refl ltac:(lia)) as (tgt & W & T).
    { cbn [Pipedout Fileout set_reader]. destruct O as [(A & B & _)|(A & _ & i & B & _)]; [left; auto|right; eauto]. }
    cbn [cHTML cCount cLines cFilters Filein Fileout Pipedin Pipedout Reader Writer set_reader] in *.
    eexists _, _, src, tgt, n. split; [exact S|]. split; [exact W|]. cbn [cHTML cCount cLines cFilters Filein Fileout Pipedin Pipedout Reader Writer].
    split; [reflexivity|]. split; [reflexivity|]. split; [exact Sz|]. split; [|split; [|rewrite L1, L2, L3, L4, K1, K2, K3, K4; auto]].
    + rewrite L5 in Sr. destruct I as [(_ & B & ->)|(_ & N & i & B & R)].
      * left. destruct Sr as [[_ ->]|(i & Fi & _)]; [auto|congruence].
      * right. split; [exact N|]. exists i. split; [exact R|]. destruct Sr as [[Fi _]|(i' & Fi & ->)]; congruence.
    + destruct O as [(_ & B & -> & ->)|(_ & N & i & B & Cr)].
      * left. destruct T as [[_ ->]|(i & Fo & _)]; [auto|congruence].
      * right. split; [exact N|]. exists i. destruct T as [[Fo _]|(i' & Fo & ->)]; [congruence|]. split; [congruence|exact Cr].
Qed.

(* ------------------------------------------------------------------ *)
(** ** main *)

Section Main.
Variable U : unicode.
Variable scan : oracle.
Variable parse : reader -> hparser.
Variable Fold Expand Tags : Filter.
Variable Stem : string -> Filter.
Variable isPrint : N -> bool.
Variable prog : string.
Variable out : writer.
Variable dk : disk.
Variable direct : bool.
Notation main := (main U scan parse Fold Expand Tags Stem isPrint prog out dk direct).

Lemma C53_lemma fuel args (wo : world out) :
  (flag_Parse args = None -> main fuel args wo = Ret (BadFlags, wo)) /\
  (forall set, flag_Parse args = Some set ->
   let file := get_string "file" "" set in
   (forall e, stdin_mode _ wo = inr e -> exists x, main fuel args wo = Ret (x, wo) /\ x <> Done) /\
   (forall mode, stdin_mode _ wo = inl mode ->
      (file = "" /\ ~ piped mode) \/ (file <> "" /\ piped mode) \/ (file <> "" /\ forall i, ~ readable (fs _ wo) file i) \/
      unknown_language args (get_string "lang" "english" set) ->
      exists x, main fuel args wo = Ret (x, wo) /\ x <> Done)).
Proof.
  split; [intros E; unfold Cli.main; rewrite E; reflexivity|]. intros set E. cbv zeta. split.
  - intros e M. unfold Cli.main. rewrite E, M. destruct (get_bool "version" set); eexists; (split; [reflexivity|discriminate]).
  - intros mode M Bad. unfold Cli.main. rewrite E, M. destruct (get_bool "version" set); [eexists; split; [reflexivity|discriminate]|].
    set (c := new_config (get_bool "html" set) (get_bool "count" set) (get_bool "lines" set)). set (file := get_string "file" "" set) in *.
    change (get_string "file" EmptyString set) with file.
    destruct (setInput (fs out wo) c mode file) as [[e|] c1] eqn:SI.
    + destruct (seqb e err_no_input); eexists; (split; [reflexivity|discriminate]).
    + destruct (C48_lemma (fs out wo) c mode file eq_refl) as (_ & _ & H3 & H4 & H5).
      assert (Ul : unknown_language args (get_string "lang" "english" set)).
      { destruct (setInput_ok (fs out wo) c mode file c1 eq_refl SI) as [_ I]. destruct Bad as [[A B]|[[A B]|[[A B]|A]]]; [| | |exact A]; exfalso.
        - destruct (H4 A B) as [c' H]. rewrite SI in H. discriminate.
        - destruct I as [(_ & _ & I)|(_ & _ & i & _ & R)]; [contradiction|]. destruct (H5 i A R B) as [c' H]. rewrite SI in H. discriminate.
        - destruct (H3 A B) as (e & _ & H). rewrite SI in H. discriminate. }
      destruct (proj1 (C49_lemma Fold Expand Tags Stem isPrint prog args _ c1) Ul) as [c2 H]. rewrite H. eexists; (split; [reflexivity|discriminate]).
Qed.

(** The same, with what is reported. *)
Lemma C53_reported_lemma fuel args (wo : world out) :
  (flag_Parse args = None -> main fuel args wo = Ret (BadFlags, wo)) /\
  (forall set, flag_Parse args = Some set ->
   let file := get_string "file" "" set in let o := get_string "out" "" set in let lang := get_string "lang" "english" set in
   (get_bool "version" set = true -> main fuel args wo = Ret (Version, wo)) /\
   (get_bool "version" set = false ->
    (forall e, stdin_mode _ wo = inr e -> main fuel args wo = Ret (Failed e, wo)) /\
    (forall mode, stdin_mode _ wo = inl mode ->
     (file = "" -> ~ piped mode -> main fuel args wo = Ret (Usage, wo)) /\
     (forall e, file <> "" -> fs_Open (fs _ wo) file = inr e -> e <> err_no_input -> main fuel args wo = Ret (Failed e, wo)) /\
     (forall i, file <> "" -> readable (fs _ wo) file i -> piped mode -> main fuel args wo = Ret (Failed err_two_input, wo)) /\
     (forall r, one_input wo mode file r ->
       (unknown_language args lang -> main fuel args wo = Ret (Failed (err_lang isPrint prog lang), wo)) /\
       (forall e, ~ unknown_language args lang -> o <> "" -> nocreate (fs _ wo) o = Some e -> main fuel args wo = Ret (Failed e, wo)))))).
Proof.
  split; [intros E; unfold Cli.main; rewrite E; reflexivity|]. intros set E. cbv zeta. split; [intros V; unfold Cli.main; rewrite E, V; reflexivity|].
  intros V. split; [intros e M; unfold Cli.main; rewrite E, V, M; reflexivity|]. intros mode M.
  set (c := new_config (get_bool "html" set) (get_bool "count" set) (get_bool "lines" set)). set (file := get_string "file" "" set).
  destruct (C48_lemma (fs out wo) c mode file eq_refl) as (H1 & H2 & _ & H4 & H5).
  assert (Go : forall r, one_input wo mode file r -> exists c1, setInput (fs out wo) c mode file = (None, c1)).
  { intros r [Fe P|i z Fe P R _]; [rewrite (H2 Fe P)|rewrite (H1 i Fe R P)]; eexists; reflexivity. }
  unfold Cli.main. rewrite E, V, M. fold c. change (get_string "file" EmptyString set) with file.
  split; [intros A B; destruct (H4 A B) as [c' ->]; reflexivity|].
  split; [intros e A O Ne|]. { 
    assert (SI : setInput (fs out wo) c mode file = (Some e, c)).
    { unfold setInput. destruct (seqb file EmptyString) eqn:Q; [apply seqb_eq in Q; contradiction|]. rewrite O. reflexivity. }
    rewrite SI. destruct (seqb e err_no_input) eqn:Q; [apply seqb_eq in Q; contradiction|reflexivity]. }
  split; [intros i A R P; destruct (H5 i A R P) as [c' ->]; reflexivity|].
  intros r I. destruct (Go r I) as (c1 & SI). rewrite SI. split.
  - intros Ul. destruct (proj1 (C49_lemma Fold Expand Tags Stem isPrint prog args _ c1) Ul) as [c2 H]. rewrite H. reflexivity.
  - intros e Ul Oe Nc. destruct (proj2 (C49_lemma Fold Expand Tags Stem isPrint prog args _ c1) Ul) as (fl & _ & H). rewrite H.
    unfold setOutput. change (get_string "out" EmptyString set) with (get_string "out" "" set).
    destruct (seqb (get_string "out" "" set) EmptyString) eqn:Q; [apply seqb_eq in Q; contradiction|]. unfold fs_Create. rewrite Nc.
    rewrite <- M. destruct wo. reflexivity.
Qed.

(** What main does to the files. *)
Lemma fs_Create_other f name r f' j : fs_Create f name = (r, f') -> names f name <> Some j -> (names f name = None -> j <> fresh f) -> data f' j = data f j.
Proof.
  unfold fs_Create. destruct (nocreate f name); [intros E; injection E as <- <-; reflexivity|]. destruct (names f name) as [i|]; intros E; injection E as <- <-.
  - intros N _. cbn. destruct (Nat.eqb_spec j i); [congruence|reflexivity].
  - intros _ N. cbn. destruct (Nat.eqb_spec j (fresh f)); [exfalso; apply N; auto|reflexivity].
Qed.

Lemma fs_Create_target f name i f' : fs_Create f name = (inl i, f') -> (names f name = Some i \/ (names f name = None /\ i = fresh f)) /\
  names f' name = Some i /\ data f' i = "" /\ readerr f' = readerr f /\ stat f' = stat f.
Proof.
  unfold fs_Create. destruct (nocreate f name); [discriminate|]. destruct (names f name) as [j|] eqn:N; intros E; injection E as <- <-; cbn; rewrite Nat.eqb_refl; [auto 8|].
  unfold seqb. rewrite String.eqb_refl. auto 8.
Qed.

Lemma C54_lemma fuel args set wo x wo' : flag_Parse args = Some set -> main fuel args wo = Ret (x, wo') ->
  forall j, (get_string "out" "" set <> "" -> names (fs _ wo) (get_string "out" "" set) <> Some j /\ (names (fs _ wo) (get_string "out" "" set) = None -> j <> fresh (fs _ wo))) ->
  data (fs _ wo') j = data (fs _ wo) j.
Proof.
  intros E. unfold Cli.main. rewrite E. destruct (get_bool "version" set); [intros H; injection H as <- <-; reflexivity|].
  destruct (stdin_mode out wo) as [mode|e]; [|intros H; injection H as <- <-; reflexivity].
  set (c := new_config (get_bool "html" set) (get_bool "count" set) (get_bool "lines" set)).
  destruct (setInput (fs out wo) c mode _) as [[e|] c1] eqn:SI; [destruct (seqb e err_no_input); intros H; injection H as <- <-; reflexivity|].
  destruct (setFilters Fold Expand Tags Stem isPrint prog c1 args _) as [[e|] c2] eqn:SF; [intros H; injection H as <- <-; reflexivity|].
  set (o := get_string "out" "" set). change (get_string "out" EmptyString set) with o.
  destruct (setOutput (fs out wo) c2 o) as [[e c3] f'] eqn:SO. intros H j Hj.
  assert (Keep : data f' j = data (fs out wo) j).
  { unfold setOutput, seqb in SO. destruct (String.eqb_spec o ""); [injection SO as <- <- <-; reflexivity|].
    destruct (fs_Create (fs out wo) o) as [[i|e1] f1] eqn:Cr; injection SO as <- <- <-; eapply fs_Create_other; try eassumption; apply Hj; assumption. }
  cbv zeta in H. destruct e as [e|]; [injection H as <- <-; exact Keep|].
  destruct (setReader _ c3) as [[e|] c4] eqn:SR; [injection H as <- <-; exact Keep|].
  destruct (setWriter c4) as [[e|] c5] eqn:SW; [injection H as <- <-; exact Keep|].
  set (wo1 := mkWorld out f' (stdin out wo) (inl mode) (stdout out wo)) in *.
  destruct (execute U scan parse out dk direct fuel wo1 c5) as [[e wo2]| |] eqn:Ex; cbn [bind] in H; try discriminate.
  assert (wo' = wo2) as -> by (destruct e; congruence).
  unfold execute in Ex. destruct (Reader c5) as [[src n]|] eqn:Re; [|injection Ex as <- <-; exact Keep].
  destruct (Writer c5) as [[tgt size]|] eqn:Wr; [|injection Ex as <- <-; exact Keep].
  match type of Ex with bind ?X _ = _ => destruct X as [[e1 b]| |] eqn:WT end; cbn [bind] in Ex; try discriminate. injection Ex as <- <-.
  assert (O : only_target tgt wo1 (bws b)).
  { eapply (write_tokens_keep (target_writer out dk tgt) _ _ (only_target tgt wo1)); [| |exact WT]; [intros ws v r ws' H1 H2; eapply target_only; eassumption|apply only_target_refl]. }
  destruct O as (_ & _ & O). rewrite <- Keep. destruct tgt as [|i].
  - rewrite O. reflexivity.
  - destruct O as (_ & _ & O). rewrite O; [reflexivity|]. intros ->.
    destruct (C55_lemma Fold Expand Tags Stem isPrint prog (fs out wo) _ _ _ _ _ _ _ _ _ _ _ _ SI SF SO) as [(e9 & c4' & i' & SR' & _)|(c4' & c5' & src' & tgt' & n' & SR' & SW' & _ & Wr' & _ & _ & T & _)].
    + cbn [fs wo1] in SR. rewrite SR in SR'. discriminate.
    + cbn [fs wo1] in SR. rewrite SR in SR'. injection SR' as <-. rewrite SW in SW'. injection SW' as <-. rewrite Wr in Wr'. injection Wr' as <- <-.
      destruct T as [(_ & T & _)|(N & i' & T & Cr)]; [discriminate|]. injection T as <-. destruct (Hj N) as [H1 H2].
      apply fs_Create_target in Cr. destruct Cr as ([Cr|[Cr ->]] & _); [contradiction|apply (H2 Cr); reflexivity].
Qed.

(** With one input, a known language and an output that can be created, main executes the filters. *)
Lemma main_runs args set wo mode file o r fl : flag_Parse args = Some set -> get_bool "version" set = false -> stdin_mode _ wo = inl mode ->
  file = get_string "file" "" set -> o = get_string "out" "" set -> one_input wo mode file r ->
  ~ unknown_language args (get_string "lang" "english" set) ->
  filters_of Fold Expand Tags Stem (get_string "lang" "english" set) args fl ->
  well_formed_fs (fs _ wo) -> (o <> "" -> nocreate (fs _ wo) o = None /\ (file <> "" -> names (fs _ wo) o <> names (fs _ wo) file)) ->
  exists wo1 c src n tgt, Reader c = Some (src, n) /\ Writer c = Some (tgt, n) /\ (4096 <= n <= 1048576)%Z /\
    cHTML c = get_bool "html" set /\ cCount c = get_bool "count" set /\ cLines c = get_bool "lines" set /\ cFilters c = fl /\
    reader_of out wo1 src = r /\ stdout _ wo1 = stdout _ wo /\
    ((o = "" /\ tgt = Stdout /\ fs _ wo1 = fs _ wo) \/ (o <> "" /\ exists i, tgt = OutFile i /\ names (fs _ wo1) o = Some i /\ data (fs _ wo1) i = "")) /\
    forall err wo', Returns (fun fuel => execute U scan parse out dk direct fuel wo1 c) (err, wo') ->
      Returns (fun fuel => main fuel args wo) (match err with None => Done | Some e => Failed e end, wo').
Proof.
  intros E V M Ef Eo In1 Ul FO WF Oc.
  set (c := new_config (get_bool "html" set) (get_bool "count" set) (get_bool "lines" set)).
  destruct (C48_lemma (fs out wo) c mode file eq_refl) as (H1 & H2 & _).
  assert (SI : exists c1, setInput (fs out wo) c mode file = (None, c1)).
  { destruct In1 as [F P|i z F P R S]; [rewrite (H2 F P)|rewrite (H1 i F R P)]; eexists; reflexivity. }
  destruct SI as [c1 SI]. destruct (proj2 (C49_lemma Fold Expand Tags Stem isPrint prog args (get_string "lang" "english" set) c1) Ul) as (fl' & FO' & SF).
  pose proof (filters_of_inj _ _ _ _ _ _ _ FO' _ FO). subst fl'.
  assert (SO : exists c3 f', setOutput (fs out wo) (with_filters c1 fl) o = (None, c3, f')).
  { unfold setOutput, seqb. destruct (String.eqb_spec o "") as [->|N]; [eexists _, _; reflexivity|]. unfold fs_Create. rewrite (proj1 (Oc N)).
    destruct (names (fs out wo) o); eexists _, _; reflexivity. }
  destruct SO as (c3 & f' & SO).
  (* the input is as before *)
  assert (Same : forall i, readable (fs out wo) file i -> file <> "" -> data f' i = data (fs out wo) i /\ readerr f' = readerr (fs out wo) /\ stat f' = stat (fs out wo)).
  { intros i [_ Rd] Nf. unfold setOutput, seqb in SO. destruct (String.eqb_spec o "") as [->|N]; [injection SO as _ <-; auto|].
    destruct (fs_Create (fs out wo) o) as [[j|e1] f1] eqn:Cr; injection SO; [intros <- _|discriminate].
    split; [|apply fs_Create_target in Cr; apply Cr].
    eapply fs_Create_other; [exact Cr|rewrite <- Rd; apply (proj2 (Oc N) Nf)|]. intros _ ->. apply WF in Rd. lia. }
  destruct (C55_lemma Fold Expand Tags Stem isPrint prog (fs out wo) _ _ _ _ _ _ _ _ _ _ _ _ SI SF SO) as
    [(e & c4 & i & SR & Fi & St)|(c4 & c5 & src & tgt & n & SR & SW & Re & Wr & Sz & Sr & T & Ch & Cc & Cl & Cf)].
  { exfalso. destruct (setInput_ok (fs out wo) c mode file c1 eq_refl SI) as [_ [(_ & N & _)|(_ & Nf & i' & Fi' & R)]]; [congruence|]. assert (i' = i) as -> by congruence.
    destruct (Same i R Nf) as (D & _ & S). rewrite D, S in St. destruct In1 as [F P|i2 z F P [_ R2] S2]; [contradiction|]. destruct R as [_ R]. congruence. }
  pose proof (filters_of_inj _ _ _ _ _ _ _ Cf _ FO) as Ecf.
  set (wo1 := mkWorld out f' (stdin out wo) (inl mode) (stdout out wo)).
  assert (Rd : reader_of out wo1 src = r).
  { destruct In1 as [F P|i z F P R S].
    - destruct Sr as [(_ & ->)|(N & _)]; [reflexivity|contradiction].
    - destruct Sr as [(N & _)|(_ & i' & R' & ->)]; [contradiction|]. assert (i' = i) as -> by (destruct R, R'; congruence).
      cbn [reader_of wo1 fs]. destruct (Same i R F) as (-> & -> & _). reflexivity. }
  exists wo1, c5, src, n, tgt. repeat (split; [solve [assumption|reflexivity|lia]|]). split.
  - destruct T as [(-> & -> & ->)|(N & i & -> & Cr)]; [left; auto|]. right. split; [exact N|]. exists i.
    apply fs_Create_target in Cr. destruct Cr as (_ & Nm & Da & _). auto.
  - intros err wo' [m R]. exists m. intros k Hk. unfold Cli.main. rewrite E, V, M. fold c. change (get_string "file" EmptyString set) with (get_string "file" "" set). rewrite <- Ef, SI, SF.
    change (get_string "out" EmptyString set) with (get_string "out" "" set). rewrite <- Eo, SO. cbn [fs]. rewrite SR, SW. fold wo1. rewrite R by exact Hk. cbn [bind].
    destruct err; reflexivity.
Qed.

Variable acc : wstate out -> string.
Hypothesis A : accepts out acc.

Lemma C59_lemma args set wo mode file o r l fl : flag_Parse args = Some set -> get_bool "version" set = false -> stdin_mode _ wo = inl mode ->
  file = get_string "file" "" set -> o = get_string "out" "" set -> one_input wo mode file r ->
  ~ unknown_language args (get_string "lang" "english" set) ->
  filters_of Fold Expand Tags Stem (get_string "lang" "english" set) args fl ->
  well_formed_fs (fs _ wo) -> (o <> "" -> nocreate (fs _ wo) o = None /\ (file <> "" -> names (fs _ wo) o <> names (fs _ wo) file)) ->
  Yields (ApplyFilters fl (input_tokens U scan parse (get_bool "html" set) r)) l ->
  exists x wo' s, Returns (fun fuel => main fuel args wo) (x, wo') /\ printed (get_bool "count" set) (get_bool "lines" set) l s /\
    ((x = Done /\ o = "" /\ acc (stdout _ wo') = (acc (stdout _ wo) ++ s)%string /\ fs _ wo' = fs _ wo) \/
     (exists e x1 y, x = Failed e /\ o = "" /\ refuses out e /\ s = (x1 ++ y)%string /\ acc (stdout _ wo') = (acc (stdout _ wo) ++ x1)%string /\ fs _ wo' = fs _ wo) \/
     (exists j, x = Done /\ o <> "" /\ names (fs _ wo') o = Some j /\ data (fs _ wo') j = s /\ stdout _ wo' = stdout _ wo) \/
     (exists e j x1 y, x = Failed e /\ o <> "" /\ target_refuses out dk (OutFile j) e /\ names (fs _ wo') o = Some j /\ s = (x1 ++ y)%string /\
        data (fs _ wo') j = x1 /\ stdout _ wo' = stdout _ wo)).
Proof.
  intros E V M Ef Eo In1 Ul FO WF Oc Y.
  destruct (main_runs args set wo mode file o r fl E V M Ef Eo In1 Ul FO WF Oc) as (wo1 & c5 & src & n & tgt & Re & Wr & Sz & Ch & Cc & Cl & Ecf & Rd & So & T & Run).
  destruct (C51_lemma U scan parse out acc A dk direct wo1 c5 src n tgt n l Re Wr ltac:(lia)) as (err & wo' & s & R & O & Pp & C).
  { rewrite Rd, Ch, Ecf. exact Y. }
  rewrite Cc, Cl in Pp.
  exists (match err with None => Done | Some e => Failed e end), wo', s. split; [exact (Run _ _ R)|].
  split; [exact Pp|]. destruct T as [(-> & -> & Ef1)|(N & i & -> & Nm & Da)].
  - cbn [written] in C. rewrite So in C. destruct O as (_ & _ & O). rewrite Ef1 in O. destruct err as [e|].
    + right; left. destruct C as (Rf & x & y & Exy & Ac). exists e, x, y. auto 8.
    + left. auto.
  - destruct O as (_ & _ & Os & On & _). cbn [written] in *. rewrite Da in C. rewrite So in Os. destruct err as [e|].
    + right; right; right. destruct C as (Rf & x & y & Exy & Ac). exists e, i, x, y. rewrite On. auto 10.
    + right; right; left. exists i. rewrite On, C. auto.
Qed.
End Main.

(* ------------------------------------------------------------------ *)
(** ** Refutations *)

Lemma C50_refute : ~ (forall Fold Expand Tags Stem isPrint prog args set lang c', flag_Parse args = Some set ->
  setFilters Fold Expand Tags Stem isPrint prog (new_config false false false) args lang = (None, c') ->
  ((exists n, In ("-" ++ n) filter_args /\ get_bool n set = true) <-> cFilters c' <> [])).
Proof.
  intros H. specialize (H (fun s => s) (fun s => s) (fun s => s) (fun _ s => s) (fun _ => true) "jargon" ["--stack"] [("stack", VBool true)] "english" (new_config false false false) eq_refl eq_refl).
  apply (proj1 H); [|reflexivity]. exists "stack". cbn. auto 8.
Qed.

(** Standard output that accepts everything. *)
Definition sink : writer := mkWriter string (fun ws v => ((String.length v, None), (ws ++ v)%string)).

Lemma sink_accepts : accepts sink (fun ws => ws).
Proof.
  intros ws v n err ws' E. cbn in E. injection E as <- <- <-. split; [lia|]. split; [reflexivity|]. rewrite substring_0_full. reflexivity.
Qed.

(** No files. *)
Definition no_files : fsys := mkFs (fun _ => None) (fun _ => "") 0 (fun _ => None) (fun _ => None) (fun _ => None) (fun _ d => inl (Z.of_nat (String.length d))).
(** One file, x, with a text. *)
Definition one_file (d : string) : fsys :=
  mkFs (fun n => if seqb n "x" then Some 0 else None) (fun j => if Nat.eqb j 0 then d else "") 1 (fun _ => None) (fun _ => None) (fun _ => None)
       (fun _ d => inl (Z.of_nat (String.length d))).

Definition no_html (r : reader) : hparser := mkHP [] None.

Lemma C52_refute : ~ (forall U scan parse out acc dk direct wo c src n tgt size l e, scanner_ok scan -> accepts out acc ->
  Reader c = Some (src, n) -> Writer c = Some (tgt, size) -> (0 < size)%Z -> cCount c = false ->
  Fails (ApplyFilters (cFilters c) (input_tokens U scan parse (cHTML c) (reader_of out wo src))) l e ->
  forall e' wo', Returns (fun fuel => execute U scan parse out dk direct fuel wo c) (e', wo') -> (forall e1, ~ target_refuses out dk tgt e1) ->
  written acc tgt wo' = (written acc tgt wo ++ listing (cLines c) l)%string).
Proof.
  intros H.
  set (wo := mkWorld sink no_files (mkReader "hello" (Some "read error")) (inl 0%N) "").
  set (c := mkCfg false false false [] None None true true (Some (Stdin, 65536%Z)) (Some (Stdout, 65536%Z))).
  assert (F := Tokenize_fails go_unicode words_scan (mkReader "hello" (Some "read error")) "read error" (scan_nonempty _ words_scan_ok _) eq_refl).
  specialize (H go_unicode words_scan no_html sink (fun ws => ws) no_limit true wo c Stdin 65536%Z Stdout 65536%Z _ _ words_scan_ok sink_accepts eq_refl eq_refl eq_refl eq_refl F (Some "read error") wo).
  assert (W : pending (words_scan (mkReader "hello" (Some "read error"))) = ["hello"]) by (vm_compute; reflexivity). rewrite W in H.
  assert (C : written (out := sink) (fun ws => ws) Stdout wo = (written (out := sink) (fun ws => ws) Stdout wo ++ listing (cLines c) (map (piece_token go_unicode) ["hello"]))%string).
  { apply H.
    - exists 10. intros fuel Hf. do 10 (destruct fuel; [lia|]). vm_compute. reflexivity.
    - intros e1 (ws & v & k & ws' & E). discriminate E. }
  vm_compute in C. discriminate C.
Qed.

Lemma C54_refute : ~ (forall U scan parse Fold Expand Tags Stem isPrint prog out dk direct fuel args set wo x wo' i,
  flag_Parse args = Some set -> readable (fs out wo) (get_string "file" "" set) i ->
  main U scan parse Fold Expand Tags Stem isPrint prog out dk direct fuel args wo = Ret (x, wo') -> data (fs out wo') i = data (fs out wo) i).
Proof.
  intros H.
  set (wo := mkWorld sink (one_file "hello") (mkReader "" None) (inl mode_char_device) "").
  assert (M : exists wo', main go_unicode words_scan no_html (fun s => s) (fun s => s) (fun s => s) (fun _ s => s) (fun _ => true) "jargon" sink no_limit true 5 ["-file"; "x"; "-out"; "x"] wo = Ret (Done, wo') /\ data (fs sink wo') 0 = "").
  { eexists. split; [vm_compute; reflexivity|reflexivity]. }
  destruct M as (wo' & M & D).
  specialize (H go_unicode words_scan no_html (fun s => s) (fun s => s) (fun s => s) (fun _ s => s) (fun _ => true) "jargon" sink no_limit true 5 ["-file"; "x"; "-out"; "x"]
    [("file", VString "x"); ("out", VString "x")] wo Done wo' 0 eq_refl (conj eq_refl eq_refl) M).
  rewrite D in H. discriminate H.
Qed.
