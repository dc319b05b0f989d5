(** * PropProcessLemmas: proofs for C85. *)

From Coq Require Import ZArith.
From Verif Require Generators.
From Verif Require Import Base Utf8 Unicode UnicodeData Token Stream StreamSpec Tokenizer Html Words WordsProofs Render Scanner Cli CliSpec CliProofs
  StreamProofs TokenProofs Utf8Proofs RenderSpec RenderProofs PropRenderLemmas PropCliLemmas PropCliLemmas2 Process ProcessSpec.
Local Open Scope string_scope.

Section Process.
Variable U : unicode.
Variable scan : oracle.
Variable parse : reader -> hparser.
Variable Fold Expand Tags : Filter.
Variable Stem : string -> Filter.
Variable isPrint : N -> bool.
Variable prog version commit date defaults : string.
Variable flag_exit : list string -> nat * string.
Variable out : writer.
Variable dk : disk.
Variable direct : bool.
Notation process := (process U scan parse Fold Expand Tags Stem isPrint prog version commit date defaults flag_exit out dk direct).
Notation main := (Cli.main U scan parse Fold Expand Tags Stem isPrint prog out dk direct).

Lemma returns_bind {B C} (f : nat -> outcome B) (g : B -> C) x : Returns f x -> Returns (fun k => do y <- f k; Ret (g y)) (g x).
Proof. intros [m H]. exists m. intros k Hk. rewrite (H k Hk). reflexivity. Qed.

Lemma usage_is : usage prog defaults = usage_text prog defaults.
Proof. unfold usage, usage_text, lf, newline. rewrite !sapp_assoc. reflexivity. Qed.

Lemma process_of args wo x wo' : Returns (fun fuel => main fuel args wo) (x, wo') ->
  Returns (fun fuel => process fuel args wo)
    match x with
    | Done => mkEnded out 0 "" wo'
    | Usage => mkEnded out 0 (usage prog defaults) wo'
    | Version => mkEnded out 0 "" (mkWorld out (fs _ wo') (stdin _ wo') (stdin_mode _ wo') (print_version version commit date out (stdout _ wo')))
    | BadFlags => let '(n, s) := flag_exit args in mkEnded out n s wo'
    | Failed e => mkEnded out 1 (e ++ lf) wo'
    end.
Proof. intros [m H]. exists m. intros k Hk. unfold Process.process. rewrite (H k Hk). reflexivity. Qed.

Lemma C85_status_lemma fuel args wo e : flag_Parse args <> None -> process fuel args wo = Ret e ->
  (status _ e = 1 /\ exists m, message m (stderr _ e)) \/ (status _ e = 0 /\ (stderr _ e = "" \/ stderr _ e = usage_text prog defaults)).
Proof.
  intros F. unfold Process.process. destruct (main fuel args wo) as [[x wo']| |] eqn:M; cbn [bind]; try discriminate. intros E. injection E as <-.
  rewrite <- usage_is. destruct x; cbn [status stderr]; [right; auto|right; auto|right; auto| |left; split; [reflexivity|]; eexists; reflexivity].
  exfalso. apply F. unfold Cli.main in M. destruct (flag_Parse args); [|reflexivity]. exfalso.
  repeat match type of M with
         | context [match ?X with _ => _ end] => destruct X; cbn [bind] in M; try discriminate
         end.
  match type of M with bind ?X _ = _ => destruct X as [[[e|] wo2]| |]; cbn [bind] in M; discriminate end.
Qed.

Lemma C85_invalid_lemma args set wo : flag_Parse args = Some set -> get_bool "version" set = false ->
  let file := get_string "file" "" set in let o := get_string "out" "" set in let lang := get_string "lang" "english" set in
  let ends n s := Returns (fun fuel => process fuel args wo) (mkEnded out n s wo) in
  (forall e, stdin_mode _ wo = inr e -> exists s, ends 1 s /\ message e s) /\
  (forall mode, stdin_mode _ wo = inl mode ->
   (file = "" -> ~ piped mode -> ends 0 (usage_text prog defaults)) /\
   (forall e, file <> "" -> fs_Open (fs _ wo) file = inr e -> e <> err_no_input -> exists s, ends 1 s /\ message e s) /\
   (forall i, file <> "" -> readable (fs _ wo) file i -> piped mode ->
     exists s, ends 1 s /\ message "choose *either* an input -file argument *or* piped input" s) /\
   (forall r, one_input wo mode file r ->
     (unknown_language args lang -> exists s, ends 1 s /\
        message ("lang " ++ Quote isPrint lang ++ " is not known by " ++ prog ++ "; options are english, french, norwegian, russian, spanish, swedish") s) /\
     (forall e, ~ unknown_language args lang -> o <> "" -> nocreate (fs _ wo) o = Some e -> exists s, ends 1 s /\ message e s))).
Proof.
  intros E V. cbv zeta.
  assert (Q : forall x, (forall fuel, main fuel args wo = Ret (x, wo)) -> Returns (fun fuel => main fuel args wo) (x, wo)).
  { intros x H. exists 0. intros k _. apply H. }
  pose proof (fun fuel => proj2 (proj2 (C53_reported_lemma U scan parse Fold Expand Tags Stem isPrint prog out dk direct fuel args wo) set E) V) as H.
  cbv zeta in H. split; [|intros mode M; repeat split].
  - intros e M. eexists. split; [exact (process_of _ _ _ _ (Q _ (fun fuel => proj1 (H fuel) e M)))|reflexivity].
  - intros F P. rewrite <- usage_is. exact (process_of _ _ _ _ (Q _ (fun fuel => proj1 (proj2 (H fuel) mode M) F P))).
  - intros e F O N. eexists. split; [exact (process_of _ _ _ _ (Q _ (fun fuel => proj1 (proj2 (proj2 (H fuel) mode M)) e F O N)))|reflexivity].
  - intros i F R P. eexists. split; [exact (process_of _ _ _ _ (Q _ (fun fuel => proj1 (proj2 (proj2 (proj2 (H fuel) mode M))) i F R P)))|reflexivity].
  - intros Ul. eexists. split; [exact (process_of _ _ _ _ (Q _ (fun fuel => proj1 (proj2 (proj2 (proj2 (proj2 (H fuel) mode M))) r H0) Ul)))|reflexivity].
  - intros e Ul O N. eexists. split; [exact (process_of _ _ _ _ (Q _ (fun fuel => proj2 (proj2 (proj2 (proj2 (proj2 (H fuel) mode M))) r H0) e Ul O N)))|reflexivity].
Qed.

Variable acc : wstate out -> string.
Hypothesis A : accepts out acc.

Lemma C85_success args set wo r o fl l : valid Fold Expand Tags Stem args set wo r o fl ->
  Yields (ApplyFilters fl (input_tokens U scan parse (get_bool "html" set) r)) l ->
  exists e s, Returns (fun fuel => process fuel args wo) e /\ printed (get_bool "count" set) (get_bool "lines" set) l s /\
    ((status _ e = 0 /\ stderr _ e = "" /\ has_got acc o wo (after _ e) s) \/
     (status _ e = 1 /\ exists m x y, message m (stderr _ e) /\ output_refuses dk o (after _ e) m /\ s = x ++ y /\ has_got acc o wo (after _ e) x)).
Proof.
  intros (E & V & Eo & WF & (mode & M & In1) & Ul & FO & Oc) Y.
  destruct (C59_lemma U scan parse Fold Expand Tags Stem isPrint prog out dk direct acc A args set wo mode _ o r l fl E V M eq_refl Eo In1 Ul FO WF Oc Y)
    as (x & wo' & s & R & P & C).
  pose proof (process_of _ _ _ _ R) as R'. destruct C as [(-> & -> & Ac & Fs)|[(e & x1 & y & -> & -> & Rf & Es & Ac & Fs)|[(j & -> & No & Nm & Da & So)|(e & j & x1 & y & -> & No & Rf & Nm & Es & Da & So)]]].
  - exists (mkEnded out 0 "" wo'), s. split; [exact R'|]. split; [exact P|]. left. split; [reflexivity|]. split; [reflexivity|]. left. auto.
  - exists (mkEnded out 1 (e ++ lf) wo'), s. split; [exact R'|]. split; [exact P|]. right. split; [reflexivity|]. exists e, x1, y. split; [reflexivity|].
    split; [left; auto|]. split; [exact Es|]. left. auto.
  - exists (mkEnded out 0 "" wo'), s. split; [exact R'|]. split; [exact P|]. left. split; [reflexivity|]. split; [reflexivity|]. right. eauto.
  - exists (mkEnded out 1 (e ++ lf) wo'), s. split; [exact R'|]. split; [exact P|]. right. split; [reflexivity|]. exists e, x1, y. split; [reflexivity|].
    destruct Rf as (d & v & n & D). split; [right; split; [exact No|]; exists j, d, v, n; auto|]. split; [exact Es|]. right. eauto.
Qed.

Lemma C85_failure args set wo r o fl l e0 : valid Fold Expand Tags Stem args set wo r o fl ->
  Fails (ApplyFilters fl (input_tokens U scan parse (get_bool "html" set) r)) l e0 ->
  exists e m x y, Returns (fun fuel => process fuel args wo) e /\ status _ e = 1 /\ message m (stderr _ e) /\
    (if get_bool "count" set then "" else listing (get_bool "lines" set) l) = x ++ y /\ has_got acc o wo (after _ e) x /\
    ((m = e0 /\ (Z.of_nat (String.length y) <= 1048576)%Z) \/ output_refuses dk o (after _ e) m).
Proof.
  intros (E & V & Eo & WF & (mode & M & In1) & Ul & FO & Oc) F.
  destruct (main_runs U scan parse Fold Expand Tags Stem isPrint prog out dk direct args set wo mode _ o r fl E V M eq_refl Eo In1 Ul FO WF Oc)
    as (wo1 & c & src & n & tgt & Re & Wr & Sz & Ch & Cc & Cl & Ecf & Rd & So & T & Run).
  destruct (C52_lemma U scan parse out acc A dk direct wo1 c src n tgt n l e0 Re Wr ltac:(lia)) as (e & wo' & x & y & R & O & Es & W & C).
  { rewrite Rd, Ch, Ecf. exact F. }
  rewrite Cc, Cl in Es. pose proof (process_of _ _ _ _ (Run _ _ R)) as R'.
  exists (mkEnded out 1 (e ++ lf) wo'), e, x, y. split; [exact R'|]. split; [reflexivity|]. split; [reflexivity|]. split; [exact Es|].
  cbn [after]. destruct T as [(-> & -> & Ef1)|(N & i & -> & Nm & Da)].
  - cbn [written] in W. rewrite So in W. destruct O as (_ & _ & O). rewrite Ef1 in O. split; [left; auto|].
    destruct C as [[-> L]|Rf]; [left; split; [reflexivity|lia]|right; left; auto].
  - destruct O as (_ & _ & Os & On & _). cbn [written] in W. rewrite Da in W. rewrite So in Os. split.
    + right. split; [exact N|]. split; [exact Os|]. exists i. rewrite On. auto.
    + destruct C as [[-> L]|(d & v & k & D)]; [left; split; [reflexivity|lia]|]. right. right. split; [exact N|]. exists i, d, v, k. rewrite On. auto.
Qed.

Lemma C85_version args set wo : flag_Parse args = Some set -> get_bool "version" set = true ->
  exists e, Returns (fun fuel => process fuel args wo) e /\ status _ e = 0 /\ stderr _ e = "" /\ fs _ (after _ e) = fs _ wo /\
    ((forall m, ~ refuses out m) ->
     acc (stdout _ (after _ e)) = acc (stdout _ wo) ++ "Version: " ++ version ++ String LF ("Commit: " ++ commit ++ String LF ("Build date: " ++ date ++ String LF ""))).
Proof.
  intros E V. eexists. split.
  - apply process_of with (x := Version) (wo' := wo). exists 0. intros k _. unfold Cli.main. rewrite E, V. reflexivity.
  - cbn [status stderr after fs stdout]. repeat (split; [reflexivity|]). intros NR.
    assert (Pl : forall ws s, acc (Println out ws s) = acc ws ++ s ++ lf).
    { intros ws s. unfold Println. destruct (wwrite out ws (s ++ lf)) as [[n err] ws'] eqn:W. destruct (A _ _ _ _ _ W) as (_ & Full & Ac). cbn [snd]. rewrite Ac.
      destruct err as [m|]; [exfalso; apply (NR m); exists ws, (s ++ lf), n, ws'; exact W|]. rewrite (Full eq_refl), substring_0_full. reflexivity. }
    unfold print_version. rewrite !Pl. unfold lf, newline, LF. rewrite !sapp_assoc. reflexivity.
Qed.
End Process.

(** ** Messages *)

Lemma one_line_spec s : one_line s <-> forall c, In c (list_ascii_of_string s) -> c <> LF.
Proof.
  induction s as [|x s IH]; cbn; [split; [intros _ c []|auto]|]. rewrite IH. split.
  - intros [N H] c [<-|I]; auto.
  - intros H. split; [apply H; now left|]. intros c I. apply H. now right.
Qed.

Lemma one_line_app a b : one_line (a ++ b) <-> one_line a /\ one_line b.
Proof. induction a as [|x a IH]; cbn; [tauto|]. rewrite IH. tauto. Qed.

Lemma not_LF c : byte_of c <> 10%N -> c <> LF.
Proof. intros N ->. apply N. reflexivity. Qed.

Lemma hex_line k n : one_line (hexdigits k n).
Proof. apply one_line_spec. intros c I. apply hexdigits_chars in I. apply not_LF. lia. Qed.

Lemma escaped_rune_line isPrint r : print_ok isPrint -> valid_rune r = true -> one_line (escaped_rune isPrint r).
Proof.
  intros PO V. unfold escaped_rune.
  destruct (N.eqb_spec r 34) as [->|N34]; [cbn; repeat split; discriminate|]. cbn [orb].
  destruct (N.eqb_spec r 92) as [->|N92]; [cbn; repeat split; discriminate|].
  destruct (isPrint r) eqn:P.
  - apply PO in P. rewrite encode_rune_valid by exact V. apply one_line_spec. intros c I. apply not_LF. intros E.
    destruct (N.ltb_spec r 128) as [L|L]; [|apply (enc_high r V L) in I; lia].
    unfold enc_raw in I. rewrite (proj2 (N.ltb_lt r 128) L) in I. destruct I as [<-|[]]. rewrite byte_chr in E by lia. lia.
  - repeat match goal with |- one_line (if ?b then _ else _) => destruct b; [first [solve [split; [discriminate|split; [discriminate|exact I]]]|split; [discriminate|split; [discriminate|apply hex_line]]]|] end.
    split; [discriminate|split; [discriminate|apply hex_line]].
Qed.

Lemma Quote_line isPrint s : print_ok isPrint -> one_line (Quote isPrint s).
Proof.
  intros PO. unfold Quote. cbn [one_line]. split; [discriminate|]. apply one_line_app. split; [|cbn; split; [discriminate|exact I]].
  apply one_line_spec. intros c J. apply la_sconcat in J as (x & J & K). apply in_map_iff in J as ([r b] & <- & J). revert c K. apply one_line_spec.
  destruct (chunk_strong _ _ _ J) as [[V ->]|(-> & c0 & ->)].
  - unfold escaped. destruct (encode_rune r) as [|c1 [|c2 e]]; try (apply escaped_rune_line; assumption).
    destruct (r =? RuneError)%N; [|apply escaped_rune_line; assumption]. split; [discriminate|split; [discriminate|apply hex_line]].
  - unfold escaped. rewrite N.eqb_refl. split; [discriminate|split; [discriminate|apply hex_line]].
Qed.

Lemma err_lang_line isPrint prog lang : print_ok isPrint -> one_line prog -> one_line (err_lang isPrint prog lang).
Proof.
  intros PO P. unfold err_lang. rewrite !one_line_app.
  split; [vm_compute; repeat split; discriminate|]. split; [apply Quote_line; exact PO|].
  split; [vm_compute; repeat split; discriminate|]. split; [exact P|]. split; vm_compute; repeat split; discriminate.
Qed.

(** ** Refutation *)

(** A device that is full. *)
Definition full : writer := mkWriter string (fun ws v => ((0, Some "no space left on device"), ws)).

Lemma full_accepts : accepts full (fun ws => ws).
Proof. intros ws v n err ws' E. cbn in E. injection E as <- <- <-. split; [lia|]. split; [discriminate|]. destruct v; cbn; induction ws; cbn; congruence. Qed.

Definition jargon {out : writer} := process go_unicode words_scan no_html (fun s => s) (fun s => s) (fun s => s) (fun _ s => s) (fun r => (32 <=? r)%N && (r <? 127)%N) "jargon" "1.0" "abc" "today" "defaults" (fun _ => (2, "")) out no_limit true.

Lemma C85_refute :
  ~ (forall U scan parse Fold Expand Tags Stem isPrint prog version commit date defaults flag_exit out dk direct fuel args wo e,
     flag_Parse args <> None ->
     process U scan parse Fold Expand Tags Stem isPrint prog version commit date defaults flag_exit out dk direct fuel args wo = Ret e ->
     (status _ e = 0 <-> stderr _ e = "")) /\
  ~ (forall U scan parse Fold Expand Tags Stem isPrint prog version commit date defaults flag_exit out acc dk direct fuel args set wo e, accepts out acc ->
     flag_Parse args = Some set -> get_bool "version" set = true ->
     process U scan parse Fold Expand Tags Stem isPrint prog version commit date defaults flag_exit out dk direct fuel args wo = Ret e ->
     status _ e = 0 -> acc (stdout _ (after _ e)) <> acc (stdout _ wo)).
Proof.
  split; intros H.
  - specialize (H go_unicode words_scan no_html (fun s => s) (fun s => s) (fun s => s) (fun _ s => s) (fun _ => true) "jargon" "1.0" "abc" "today" "defaults" (fun _ => (2, "")) sink no_limit true
      0 [] (mkWorld sink no_files (mkReader "" None) (inl mode_char_device) "") _ ltac:(discriminate) eq_refl).
    pose proof (proj1 H eq_refl) as X. discriminate X.
  - specialize (H go_unicode words_scan no_html (fun s => s) (fun s => s) (fun s => s) (fun _ s => s) (fun _ => true) "jargon" "1.0" "abc" "today" "defaults" (fun _ => (2, "")) full (fun ws => ws) no_limit true
      0 ["-version"] _ (mkWorld full no_files (mkReader "" None) (inl mode_char_device) "") _ full_accepts eq_refl eq_refl eq_refl eq_refl).
    apply H. reflexivity.
Qed.
