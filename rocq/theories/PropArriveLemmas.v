(** * PropArriveLemmas: proofs for C90. *)

From Coq Require Import ZArith.
From Verif Require Import Base Utf8 Unicode Token Stream StreamSpec StreamProofs Tokenizer TokenProofs Filters FilterProofs Scanner ScannerSpec ScannerProofs Html Cli
  SimSpec PropSimLemmas BufReader.

(* ------------------------------------------------------------------ *)
(** ** bufio.Reader *)

Lemma sfirst_sdrop n s : (sfirst n s ++ sdrop n s)%string = s.
Proof. revert s; induction n; intros [|c s]; cbn; try reflexivity. now rewrite IHn. Qed.
Lemma sfirst_len n s : String.length (sfirst n s) = Nat.min n (String.length s).
Proof. revert s; induction n; intros [|c s]; cbn; try reflexivity. now rewrite IHn. Qed.

Lemma bufio_supplies size rd e P : 0 < size -> supplies rd e P ->
  supplies (bufio_Reader size rd) e (fun k b d =>
    (br_buf b = EmptyString /\ br_err b = None /\ P k (br_src b) d) \/
    (exists d', d = (br_buf b ++ d')%string /\
      ((br_err b = Some e /\ d' = EmptyString) \/ (br_err b = None /\ br_buf b <> EmptyString /\ P max_empty_reads (br_src b) d')))).
Proof.
  intros S0 Su k b d room HP R0. cbn [rread bufio_Reader]. destruct b as [buf err sr]. cbn [br_buf br_err br_src] in HP. unfold br_Read. cbn [br_buf br_err br_src].
  destruct buf as [|c buf].
  - destruct err as [e'|].
    + destruct HP as [(_ & H & _)|(d' & -> & [[[= ->] ->]|(H & _)])]; [discriminate| |discriminate].
      split; [cbn; lia|]. exists EmptyString. split; [reflexivity|]. auto.
    + assert (P k sr d) as Q.
      { destruct HP as [(_ & _ & Q)|(d' & _ & [(H & _)|(_ & H & _)])]; [exact Q|discriminate|congruence]. }
      clear HP. destruct (Nat.eqb_spec room 0) as [->|_]; [lia|]. destruct (Nat.leb_spec size room) as [L|L].
      * specialize (Su k sr d room Q R0). destruct (rread rd sr room) as [[x er] r']. destruct Su as (Lx & d' & Ed & H). split; [exact Lx|].
        exists d'. split; [exact Ed|]. destruct er as [e'|]; [exact H|]. destruct H as [(N & H)|(E & k' & Ek & H)].
        -- left. split; [exact N|]. left. auto.
        -- right. split; [exact E|]. exists k'. split; [exact Ek|]. left. auto.
      * specialize (Su k sr d size Q S0). destruct (rread rd sr size) as [[x er] r']. destruct Su as (Lx & d' & Ed & H).
        destruct (Nat.eqb_spec (String.length x) 0) as [E0|E0].
        -- assert (x = EmptyString) as -> by (destruct x; [reflexivity|discriminate]). split; [cbn; lia|]. exists d'. split; [exact Ed|].
           destruct er as [e'|]; [exact H|]. destruct H as [(N & _)|(_ & k' & Ek & H)]; [congruence|]. right. split; [reflexivity|]. exists k'. split; [exact Ek|]. left. auto.
        -- split; [rewrite sfirst_len; lia|]. exists (sdrop room x ++ d')%string. split; [rewrite <- sapp_assoc, sfirst_sdrop; exact Ed|].
           left. split; [intros E; apply (f_equal String.length) in E; rewrite sfirst_len in E; cbn in E; lia|].
           cbn [br_buf br_err br_src]. destruct er as [e'|].
           ++ destruct H as [-> ->]. right. exists EmptyString. split; [reflexivity|]. left. auto.
           ++ destruct H as [(N & H)|(-> & _)]; [|cbn in E0; congruence]. destruct (sdrop room x) as [|c' y] eqn:Ey.
              ** left. cbn. auto.
              ** right. exists d'. split; [reflexivity|]. right. split; [reflexivity|]. split; [discriminate|exact H].
  - destruct HP as [(H & _)|(d' & Ed & H)]; [discriminate|]. split; [rewrite sfirst_len; lia|]. exists (sdrop room (String c buf) ++ d')%string.
    split; [rewrite <- sapp_assoc, sfirst_sdrop; exact Ed|]. left.
    split; [intros E; apply (f_equal String.length) in E; rewrite sfirst_len in E; cbn in E; lia|]. cbn [br_buf br_err br_src].
    destruct H as [[-> ->]|(-> & _ & H)].
    + right. exists EmptyString. split; [reflexivity|]. left. auto.
    + destruct (sdrop room (String c buf)) as [|c' y] eqn:Ey.
      * left. cbn. auto.
      * right. exists d'. split; [reflexivity|]. right. split; [reflexivity|]. split; [discriminate|exact H].
Qed.

Lemma bufio_delivers size rd r d e : 0 < size -> delivers_text rd r d e -> delivers_text (bufio_Reader size rd) (br_New rd r) d e.
Proof.
  intros S0 (P & Su & HP). eexists. split; [exact (bufio_supplies size rd e P S0 Su)|]. left. cbn. auto.
Qed.

(* ------------------------------------------------------------------ *)
(** ** The tokens *)

Section Tokens.
Variable split : string -> bool -> option string.
Hypothesis SO : split_ok split.
Variable start_size max_size : nat.
Hypothesis S0 : 0 < start_size.
Hypothesis M0 : 0 < max_size.
Variable U : unicode.

Lemma ScanB_mono rd n : forall b x m, ScanB start_size max_size split rd n b = Ret x -> n <= m -> ScanB start_size max_size split rd m b = Ret x.
Proof.
  induction n as [|n IH]; intros b x m E L; [discriminate|]. destruct m as [|m]; [lia|]. cbn [ScanB] in *. cbv zeta in *.
  destruct (if _ || _ then split _ _ else None); [exact E|]. destruct (berr b); [exact E|]. destruct (_ && Nat.leb max_size (blen b)); [exact E|].
  destruct (read_loop _ _ _ _) as [[y er] r']. apply IH; [exact E|lia].
Qed.
Lemma ScanB_no_panic rd n : forall b, ScanB start_size max_size split rd n b <> Panic.
Proof.
  induction n as [|n IH]; intros b E; [discriminate|]. cbn [ScanB] in *. cbv zeta in *.
  destruct (if _ || _ then split _ _ else None); [discriminate|]. destruct (berr b); [discriminate|]. destruct (_ && Nat.leb max_size (blen b)); [discriminate|].
  destruct (read_loop _ _ _ _) as [[y er] r']. exact (IH _ E).
Qed.

Section Reader.
Variable rd : io_reader.
Variable e : rderr.
Variable P : nat -> RS rd -> string -> Prop.
Hypothesis Su : supplies rd e P.

Notation next := (btokenizer_next start_size max_size split rd U).
Notation ready := (Ready max_size rd e P).
Definition fin_err : option error := match e with EOF => None | RErr er => Some er end.

(** The buffered scanner stands for the pieces [pending sc]. *)
Definition stands (b : buffered rd) (sc : scanner) : Prop :=
  serr sc = fin_err /\ exists d, ready b d /\ cut_into split (pend b ++ d)%string (pending sc) /\ fits max_size split (pend b ++ d)%string.

Lemma stands_steps b sc : stands b sc -> exists r b' sc', Steps next b r b' /\ (forall n, tokenizer_next U n sc = Ret (r, sc')) /\ stands b' sc'.
Proof.
  intros (Es & d & Rb & C & F). destruct sc as [l er]. cbn [pending serr] in *. subst er.
  destruct (ScanB_spec split SO start_size max_size S0 M0 rd e P Su _ b d (Nat.lt_succ_diag_r _) Rb) as (out & R & [(Q & b' & -> & Rb' & Be & Pe)|[(p & b' & d' & -> & Q & S & Rb')|(b' & x & y & -> & _ & Q & L & N)]]).
  - rewrite Q in C. inversion C as [El|p d' l' S C' E1 E2].
    2:{ exfalso. destruct (split_prefix _ SO _ _ _ S) as (N & _). destruct p; [congruence|discriminate]. }
    exists (None, fin_err), b', (mkScanner [] fin_err). split; [|split].
    + pose proof (next_end split start_size max_size S0 M0 rd U _ _ R) as St. unfold ErrB in St. rewrite Be in St. unfold fin_err. destruct e; exact St.
    + intros n. unfold tokenizer_next, sc_Scan. cbn [pending serr]. unfold fin_err. destruct e; reflexivity.
    + split; [reflexivity|]. exists EmptyString. rewrite Pe. cbn [pending]. split; [exact Rb'|]. split; [constructor|]. rewrite Q in F. exact F.
  - destruct (split_prefix _ SO _ _ _ S) as (Np & _). rewrite Q in S, C, F.
    assert (NE : (p ++ (pend b' ++ d'))%string <> EmptyString) by (destruct p; [congruence|discriminate]).
    destruct (cut_inv split _ _ C NE) as (p' & d2 & l' & S2 & E2 & -> & C'). assert (p' = p) as -> by congruence. apply sapp_inv_head in E2. subst d2.
    exists (Some (piece_token U p), None), b', (mkScanner l' fin_err). split; [|split].
    + exact (next_token split start_size max_size S0 M0 rd U _ _ _ R Np).
    + intros n. unfold tokenizer_next, sc_Scan. cbn [pending serr]. rewrite piece_token_ok by exact Np. reflexivity.
    + split; [reflexivity|]. exists d'. cbn [pending]. split; [exact Rb'|]. split; [exact C'|]. exact (fits_tail split max_size _ _ S F).
  - exfalso. exact (F [] l x y C (eq_trans (cut_concat split _ _ C) Q) L N).
Qed.

Lemma next_mono n b x m : next n b = Ret x -> n <= m -> next m b = Ret x.
Proof.
  unfold btokenizer_next. intros E L. destruct (ScanB start_size max_size split rd n b) as [a| |] eqn:Es; try discriminate.
  rewrite (ScanB_mono rd n b a m Es L). exact E.
Qed.
Lemma next_no_panic n b : next n b <> Panic.
Proof.
  unfold btokenizer_next. intros E. destruct (ScanB start_size max_size split rd n b) as [[x b']| |] eqn:Es; cbn [bind] in E; try discriminate.
  - destruct x; [discriminate|]. destruct (ErrB rd b'); discriminate.
  - exact (ScanB_no_panic rd n b Es).
Qed.

Lemma arrive_follows b sc : stands b sc ->
  Rel (ResR stands) (fun n => next n b) (fun n => tokenizer_next U n sc).
Proof.
  intros St. destruct (stands_steps b sc St) as (r & b' & sc' & [N Sb] & Ss & St'). split.
  - intros n a E. assert (a = (r, b')) as ->.
    { pose proof (next_mono n b a (Nat.max n N) E ltac:(lia)) as E2. rewrite Sb in E2 by lia. congruence. }
    exists (r, sc'). split; [split; [reflexivity|exact St']|]. exists 0. intros m _. apply Ss.
  - intros n E. exfalso. exact (next_no_panic n b E).
Qed.
Lemma follows_arrive b sc : stands b sc ->
  Rel (ResR (fun sc b => stands b sc)) (fun n => tokenizer_next U n sc) (fun n => next n b).
Proof.
  intros St. destruct (stands_steps b sc St) as (r & b' & sc' & [N Sb] & Ss & St'). split.
  - intros n a E. rewrite Ss in E. injection E as <-. exists (r, b'). split; [split; [reflexivity|exact St']|]. exists N. exact Sb.
  - intros n E. rewrite Ss in E. discriminate.
Qed.

Lemma alike_tokens r d l : P max_empty_reads r d -> cut_into split d l -> fits max_size split d ->
  alike (TokenizeFrom start_size max_size split rd U r) (NewTokenStream (tokenizer_next U) (mkScanner l fin_err)).
Proof.
  intros HP C F. assert (St : stands (NewScanner rd r) (mkScanner l fin_err)).
  { split; [reflexivity|]. exists d. split; [apply (start_ready start_size max_size S0 M0), HP|]. cbn. auto. }
  split.
  - apply (Follows_new _ _ stands); [exact arrive_follows|exact St].
  - apply (Follows_new _ _ (fun sc b => stands b sc)); [intros x y H; apply follows_arrive, H|exact St].
Qed.
End Reader.

Lemma Follows_trans s1 s2 s3 : Follows s1 s2 -> Follows s2 s3 -> Follows s1 s3.
Proof.
  revert s1 s2 s3. cofix CH. intros s1 s2 s3 [A1 A2] [B1 B2]. constructor.
  - intros n r s1' E. destruct (A1 _ _ _ E) as (s2' & [m N] & F). destruct (B1 m r s2' (N m (le_n _))) as (s3' & N3 & F3).
    exists s3'. split; [exact N3|]. exact (CH _ _ _ F F3).
  - intros n E. destruct (A2 _ E) as [m N]. exact (B2 m (N m (le_n _))).
Qed.
Lemma alike_trans s1 s2 s3 : alike s1 s2 -> alike s2 s3 -> alike s1 s3.
Proof. intros [A1 A2] [B1 B2]. split; eapply Follows_trans; eassumption. Qed.
Lemma alike_sym s1 s2 : alike s1 s2 -> alike s2 s1.
Proof. intros [A1 A2]. split; assumption. Qed.

Lemma C90_tokens rd r d e seg : delivers_text rd r d e -> fits max_size split d -> (forall x, cut_into split x (seg x)) ->
  alike (TokenizeFrom start_size max_size split rd U r) (Tokenize U (scan_of seg) (mkReader d (match e with EOF => None | RErr er => Some er end))).
Proof. intros (P & Su & HP) F C. exact (alike_tokens rd e P Su r d (seg d) HP (C d) F). Qed.

Lemma C90_same rd1 r1 rd2 r2 d e : delivers_text rd1 r1 d e -> delivers_text rd2 r2 d e -> fits max_size split d ->
  alike (TokenizeFrom start_size max_size split rd1 U r1) (TokenizeFrom start_size max_size split rd2 U r2).
Proof.
  intros (P1 & Su1 & HP1) (P2 & Su2 & HP2) F. destruct (cut_total split SO d) as [l C].
  eapply alike_trans; [exact (alike_tokens rd1 e P1 Su1 r1 d l HP1 C F)|]. apply alike_sym. exact (alike_tokens rd2 e P2 Su2 r2 d l HP2 C F).
Qed.
End Tokens.

(* ------------------------------------------------------------------ *)
(** ** The output *)

Lemma WriteString_mono w size direct k : forall b s m x, WriteString w size direct k b s = x -> x <> NoFuel -> k <= m -> WriteString w size direct m b s = x.
Proof.
  induction k as [|k IH]; intros b s m x E N L; [cbn in E; congruence|]. destruct m as [|m]; [lia|]. cbn [WriteString] in *.
  destruct (Nat.ltb (Available w size b) (String.length s) && _); [|exact E].
  destruct (direct && _).
  - destruct (wwrite w (bws b) s) as [[n err] ws']. apply IH; [exact E|exact N|lia].
  - cbv zeta in *. destruct (Flush w _) as [er b']. apply IH; [exact E|exact N|lia].
Qed.
Lemma Rel_WriteString w size direct b s : Rel eq (fun n => WriteString w size direct n b s) (fun n => WriteString w size direct n b s).
Proof.
  split.
  - intros n a E. exists a. split; [reflexivity|]. exists n. intros m L. exact (WriteString_mono w size direct n b s m _ E ltac:(discriminate) L).
  - intros n E. exists n. intros m L. exact (WriteString_mono w size direct n b s m _ E ltac:(discriminate) L).
Qed.

Lemma write_all_iter w size direct lines fuel k : forall b s, write_all w size direct lines fuel k b s =
  iter (fun fuel (x : bwriter w * TokenStream) => let '(b, s) := x in do (ok, s') <- Scan fuel s;
    if (ok : bool) then
      match Token s' with
      | None => Panic
      | Some t =>
        do (e, b1) <- WriteString w size direct fuel b (tvalue t);
        match e with
        | Some e => Ret (inl (Some e, b1))
        | None =>
          if (lines : bool) then
            let '(e, b2) := WriteByte w size b1 newline in
            match e with
            | Some e => Ret (inl (Some e, b2))
            | None => Ret (inr (b2, s'))
            end
          else Ret (inr (b1, s'))
        end
      end
    else match Err s' with Some e => Ret (inl (Some e, b)) | None => Ret (inl (Flush w b)) end) fuel k (b, s).
Proof.
  induction k as [|k IH]; intros b s; [reflexivity|]. cbn [write_all iter].
  destruct (Scan fuel s) as [[ok s']| |]; cbn [bind]; try reflexivity. destruct ok; [|destruct (Err s'); reflexivity].
  destruct (Token s') as [t|]; cbn [bind]; [|reflexivity]. destruct (WriteString w size direct fuel b (tvalue t)) as [[er b1]| |]; cbn [bind]; try reflexivity.
  destruct er; cbn [bind]; [reflexivity|]. destruct lines; [|apply IH]. destruct (WriteByte w size b1 newline) as [er b2]. destruct er; cbn [bind]; [reflexivity|apply IH].
Qed.

Lemma Rel_write_tokens w size direct count lines b s1 s2 : Follows s1 s2 ->
  Rel eq (fun n => write_tokens w size direct count lines n b s1) (fun n => write_tokens w size direct count lines n b s2).
Proof.
  intros F. unfold write_tokens. destruct count.
  - eapply Rel_bind; [apply Rel_Count, F|]. intros [[n er] t1] [[n' er'] t2] [E _]. cbn [fst] in E. injection E as <- <-.
    destruct er; [apply Rel_ret; reflexivity|]. apply (Rel_bind eq); [apply Rel_WriteString|]. intros [x b1] y <-. apply Rel_ret. reflexivity.
  - eapply Rel_ext; [intros n; apply write_all_iter|intros n; apply write_all_iter|].
    apply (Rel_iter (fun x y => fst x = fst y /\ Follows (snd x) (snd y))); [|split; [reflexivity|exact F]].
    intros [b1 t1] [b2 t2] [E G]. cbn [fst snd] in *. subst b2. apply (Rel_bind ScanR); [apply Rel_Scan, G|].
    intros [ok u1] [ok' u2] (E1 & E2 & E3 & G'). cbn [fst snd] in *. subst ok'. destruct ok.
    + rewrite E2. destruct (Token u2) as [t|]; [|apply Rel_panic]. apply (Rel_bind eq); [apply Rel_WriteString|]. intros [er b2] y <-.
      destruct er; [apply Rel_ret; constructor; reflexivity|]. destruct lines; [|apply Rel_ret; constructor; split; [reflexivity|exact G']].
      destruct (WriteByte w size b2 newline) as [er b3]. destruct er; apply Rel_ret; constructor; [reflexivity|split; [reflexivity|exact G']].
    + rewrite E3. destruct (Err u2); apply Rel_ret; constructor; reflexivity.
Qed.

Lemma C90_written w size direct count lines b s1 s2 : alike s1 s2 ->
  same_outcome (fun x => x) (fun x => x) (fun n => write_tokens w size direct count lines n b s1) (fun n => write_tokens w size direct count lines n b s2).
Proof.
  intros [H1 H2]. eapply Rel_same; [apply Rel_write_tokens, H1|apply Rel_write_tokens, H2| |]; intros a c E; congruence.
Qed.

(** The whole program. *)
Section Execute.
Variable split : string -> bool -> option string.
Hypothesis SO : split_ok split.
Variable start_size max_size : nat.
Hypothesis S0 : 0 < start_size.
Hypothesis M0 : 0 < max_size.
Variable U : unicode.
Variable seg : string -> list string.
Hypothesis C : forall x, cut_into split x (seg x).
Variable parse : reader -> hparser.
Variable out : writer.
Variable dk : disk.
Variable direct : bool.

Lemma C90_lemma scan wo c src size tgt wsize rd r e :
  cHTML c = false -> Reader c = Some (src, size) -> Writer c = Some (tgt, wsize) -> (0 < size)%Z ->
  Forall (any_filter U scan) (cFilters c) ->
  delivers_text rd r (rdata (reader_of out wo src)) e -> rerr (reader_of out wo src) = match e with EOF => None | RErr er => Some er end ->
  fits max_size split (rdata (reader_of out wo src)) ->
  same_outcome (fun x : option error * world out => x)
    (fun x : option error * bwriter (target_writer out dk tgt) => (fst x, (bws (snd x) : world out)))
    (fun fuel => execute U (scan_of seg) parse out dk direct fuel wo c)
    (fun fuel => write_tokens (target_writer out dk tgt) (Z.to_nat wsize) direct (cCount c) (cLines c) fuel
       (@mkBW (target_writer out dk tgt) EmptyString None wo)
       (ApplyFilters (cFilters c)
         (TokenizeFrom start_size max_size split (bufio_Reader (Z.to_nat size) rd) U (br_New rd r)))).
Proof.
  intros Hh Hr Hw Z0 Af D Ee F.
  assert (A : alike (ApplyFilters (cFilters c) (Tokenize U (scan_of seg) (reader_of out wo src)))
    (ApplyFilters (cFilters c) (TokenizeFrom start_size max_size split (bufio_Reader (Z.to_nat size) rd) U (br_New rd r)))).
  { apply (C89_chain U scan); [exact Af|]. apply alike_sym. pose proof (bufio_delivers (Z.to_nat size) rd r _ e ltac:(lia) D) as D'.
    pose proof (C90_tokens split SO start_size max_size S0 M0 U _ _ _ e seg D' F C) as A. rewrite <- Ee in A.
    destruct (reader_of out wo src). exact A. }
  assert (X : forall fuel, execute U (scan_of seg) parse out dk direct fuel wo c =
    do x <- write_tokens (target_writer out dk tgt) (Z.to_nat wsize) direct (cCount c) (cLines c) fuel (@mkBW (target_writer out dk tgt) EmptyString None wo)
       (ApplyFilters (cFilters c) (Tokenize U (scan_of seg) (reader_of out wo src))); Ret (fst x, (bws (snd x) : world out))).
  { intros fuel. unfold execute. rewrite Hr, Hw, Hh. unfold ApplyFilters. destruct (write_tokens _ _ _ _ _ _ _ _) as [[x y]| |]; reflexivity. }
  destruct A as [A1 A2].
  eapply (Rel_same _ _ (fun (a : option error * world out) (b : option error * bwriter (target_writer out dk tgt)) => a = (fst b, (bws (snd b) : world out))) (fun (b : option error * bwriter (target_writer out dk tgt)) (a : option error * world out) => a = (fst b, (bws (snd b) : world out)))).
  - apply (Rel_ext _ _ (fun fuel => do x <- write_tokens (target_writer out dk tgt) (Z.to_nat wsize) direct (cCount c) (cLines c) fuel (@mkBW (target_writer out dk tgt) EmptyString None wo)
       (ApplyFilters (cFilters c) (Tokenize U (scan_of seg) (reader_of out wo src))); Ret (fst x, (bws (snd x) : world out))) _
       (fun fuel => do x <- write_tokens (target_writer out dk tgt) (Z.to_nat wsize) direct (cCount c) (cLines c) fuel (@mkBW (target_writer out dk tgt) EmptyString None wo)
       (ApplyFilters (cFilters c) (TokenizeFrom start_size max_size split (bufio_Reader (Z.to_nat size) rd) U (br_New rd r))); Ret x)); [exact X| |].
    + intros n. destruct (write_tokens _ _ _ _ _ _ _ _); reflexivity.
    + apply (Rel_bind eq); [apply Rel_write_tokens, A1|]. intros a b <-. apply Rel_ret. reflexivity.
  - apply (Rel_ext _ _ (fun fuel => do x <- write_tokens (target_writer out dk tgt) (Z.to_nat wsize) direct (cCount c) (cLines c) fuel (@mkBW (target_writer out dk tgt) EmptyString None wo)
       (ApplyFilters (cFilters c) (TokenizeFrom start_size max_size split (bufio_Reader (Z.to_nat size) rd) U (br_New rd r))); Ret x) _
       (fun fuel => do x <- write_tokens (target_writer out dk tgt) (Z.to_nat wsize) direct (cCount c) (cLines c) fuel (@mkBW (target_writer out dk tgt) EmptyString None wo)
       (ApplyFilters (cFilters c) (Tokenize U (scan_of seg) (reader_of out wo src))); Ret (fst x, (bws (snd x) : world out)))); [|exact X|].
    + intros n. destruct (write_tokens _ _ _ _ _ _ _ _); reflexivity.
    + apply (Rel_bind eq); [apply Rel_write_tokens, A2|]. intros a b <-. apply Rel_ret. reflexivity.
  - auto.
  - auto.
Qed.
End Execute.
