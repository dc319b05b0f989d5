(** * ScannerProofs: lemmas behind C14. *)

From Verif Require Import Base Utf8 Unicode Token Stream StreamSpec Tokenizer Scanner ScannerSpec StreamProofs TokenProofs FilterProofs.

Lemma slen_app a b : String.length (a ++ b) = String.length a + String.length b.
Proof. induction a; cbn; auto. Qed.
Lemma sapp_nil_r' a : (a ++ "")%string = a.
Proof. induction a; cbn; congruence. Qed.
Lemma sapp_inv_head a b c : (a ++ b)%string = (a ++ c)%string -> b = c.
Proof. induction a; cbn; auto. intros E. injection E. auto. Qed.
Lemma sdrop_app p d : sdrop (String.length p) (p ++ d)%string = d.
Proof. induction p; cbn; auto. Qed.
Lemma slen_0 s : String.length s = 0 -> s = EmptyString.
Proof. destruct s; [reflexivity|discriminate]. Qed.

Section Cut.
Variable split : string -> bool -> option string.
Hypothesis SO : split_ok split.

Lemma split_empty eof : split EmptyString eof = None.
Proof.
  destruct (split EmptyString eof) as [p|] eqn:E; [|reflexivity]. destruct (split_prefix _ SO _ _ _ E) as (N & d & H).
  destruct p; [congruence|discriminate].
Qed.

Lemma cut_total d : exists l, cut_into split d l.
Proof.
  remember (String.length d) as n eqn:Hn. revert d Hn. induction n as [n IH] using (well_founded_induction lt_wf). intros d ->.
  destruct d as [|c d].
  - exists []. constructor.
  - destruct (split (String c d) true) as [p|] eqn:E; [|exfalso; apply (split_total _ SO (String c d)); [discriminate|exact E]].
    destruct (split_prefix _ SO _ _ _ E) as (N & d' & H).
    destruct (IH (String.length d')) with (d := d') as [l L]; [|reflexivity|].
    + rewrite H, slen_app. destruct p; [congruence|]. cbn. lia.
    + exists (p :: l). rewrite H. constructor; [rewrite <- H; exact E|exact L].
Qed.

Lemma cut_inv d l : cut_into split d l -> d <> EmptyString -> exists p d' l', split d true = Some p /\ d = (p ++ d')%string /\ l = p :: l' /\ cut_into split d' l'.
Proof. intros C N. destruct C as [|p d l S C]; [congruence|]. exists p, d, l. auto. Qed.

Lemma cut_inj d l1 : cut_into split d l1 -> forall l2, cut_into split d l2 -> l1 = l2.
Proof.
  induction 1 as [|p d l S C IH]; intros l2 C2.
  - inversion C2 as [|p d l S C E]; subst; [reflexivity|]. exfalso.
    destruct (split_prefix _ SO _ _ _ S) as (N & _). destruct p; [congruence|discriminate].
  - assert (N : (p ++ d)%string <> EmptyString).
    { destruct (split_prefix _ SO _ _ _ S) as (N & _). destruct p; [congruence|discriminate]. }
    destruct (cut_inv _ _ C2 N) as (p2 & d2 & l' & S2 & E & -> & C'). assert (p2 = p) as -> by congruence.
    apply sapp_inv_head in E. subst d2. f_equal. apply IH, C'.
Qed.

Lemma cut_concat d l : cut_into split d l -> sconcat l = d.
Proof. induction 1; cbn; congruence. Qed.

Lemma cut_nonempty d l : cut_into split d l -> forall x, In x l -> x <> EmptyString.
Proof.
  induction 1 as [|p d l S C IH]; intros x [].
  - subst. apply (split_prefix _ SO _ _ _ S).
  - auto.
Qed.

(** The rest of a fitting text fits. *)
Lemma fits_tail mx p d : split (p ++ d)%string true = Some p -> fits mx split (p ++ d)%string -> fits mx split d.
Proof.
  intros S F ps qs x y C E L. apply (F (p :: ps) qs x y); auto. cbn [app]. constructor; assumption.
Qed.

Section Scan.
Variable start_size max_size : nat.
Hypothesis S0 : 0 < start_size.
Hypothesis M0 : 0 < max_size.
Variable rd : io_reader.
Variable e : rderr.
Variable P : nat -> RS rd -> string -> Prop.
Hypothesis Su : supplies rd e P.

Lemma read_loop_spec room : 0 < room -> forall k loops r d, k <= loops -> P k r d ->
  exists x er r' d', read_loop rd loops room r = (x, er, r') /\ String.length x <= room /\ d = (x ++ d')%string /\
    ((er = Some e /\ d' = EmptyString) \/ (er = None /\ x <> EmptyString /\ P max_empty_reads r' d')).
Proof.
  intros R0. induction k as [|k IH]; intros loops r d Lk HP.
  - pose proof (Su 0 r d room HP R0) as H.
    assert (G : forall x er r', rread rd r room = (x, er, r') -> String.length x <= room /\ exists d', d = (x ++ d')%string /\
      ((er = Some e /\ d' = EmptyString) \/ (er = None /\ x <> EmptyString /\ P max_empty_reads r' d'))).
    { intros x er r' E. rewrite E in H. destruct H as (Lx & d' & Ed & H). split; [exact Lx|]. exists d'. split; [exact Ed|].
      destruct er as [e'|]; [destruct H as [-> ->]; auto|]. destruct H as [(Nx & HP')|(_ & k' & C & _)]; [auto|discriminate]. }
    assert (G2 : read_loop rd loops room r = rread rd r room).
    { destruct (rread rd r room) as [[x er] r'] eqn:E. destruct (G _ _ _ eq_refl) as (Lx & d' & _ & C).
      destruct loops; cbn [read_loop]; rewrite E; (destruct (Nat.ltb_spec room (String.length x)) as [Hb|Hb]; [lia|]);
        (destruct C as [[-> _]|(-> & Nx & _)]; [reflexivity|]);
        (destruct (Nat.ltb_spec 0 (String.length x)) as [Hx|Hx]; [reflexivity|exfalso; apply Nx, slen_0; lia]). }
    rewrite G2. destruct (rread rd r room) as [[x er] r'] eqn:E. destruct (G _ _ _ eq_refl) as (Lx & d' & Ed & C).
    exists x, er, r', d'. auto.
  - destruct loops as [|loops]; [lia|]. cbn [read_loop]. pose proof (Su (S k) r d room HP R0) as H. destruct (rread rd r room) as [[x er] r'].
    destruct H as (Lx & d' & -> & H2). destruct (Nat.ltb_spec room (String.length x)) as [Hb|Hb]; [lia|].
    destruct er as [e'|]; [destruct H2 as [-> ->]; exists x, (Some e), r', EmptyString; auto 8|].
    destruct H2 as [(Nx & HP')|(-> & k' & C & HP')].
    + destruct (Nat.ltb_spec 0 (String.length x)) as [Hx|Hx]; [|exfalso; apply Nx, slen_0; lia]. exists x, None, r', d'. auto 8.
    + injection C as <-. cbn [String.length Nat.ltb Nat.leb String.append]. apply (IH loops r' d'); [lia|exact HP'].
Qed.

Definition Ready (b : buffered rd) (d : string) : Prop :=
  start b + String.length (pend b) <= blen b /\ blen b <= max_size /\
  match berr b with None => P max_empty_reads (src b) d | Some e' => e' = e /\ d = EmptyString end.

Notation ScanB := (ScanB start_size max_size split rd).

Lemma ScanB_spec n : forall b d, String.length d + (match berr b with None => 1 | Some _ => 0 end) < n -> Ready b d ->
  exists out, Returns (fun m => ScanB m b) out /\
  (((pend b ++ d)%string = EmptyString /\ exists b', out = (None, b') /\ Ready b' EmptyString /\ berr b' = Some e /\ pend b' = EmptyString) \/
   (exists p b' d', out = (Some p, b') /\ (pend b ++ d = p ++ (pend b' ++ d'))%string /\ split (pend b ++ d)%string true = Some p /\ Ready b' d') \/
   (exists b' x y, out = (None, b') /\ berr b' = Some (RErr err_too_long) /\ (pend b ++ d)%string = (x ++ y)%string /\
      String.length x = max_size /\ split x false = None)).
Proof.
  induction n as [|n IH]; intros b d Hn Rb; [lia|]. destruct b as [pe st bl be sr]. cbn [pend start blen berr src] in *.
  destruct Rb as (L1 & L2 & R). cbn [pend start blen berr src] in *.
  assert (Found : forall p eof, split pe eof = Some p -> split (pe ++ d)%string true = Some p ->
    exists b' d', (Some p, mkB (sdrop (String.length p) pe) (st + String.length p) bl be sr) = (Some p, b') /\
      (pe ++ d = p ++ (pend b' ++ d'))%string /\ Ready b' d').
  { intros p eof E _. destruct (split_prefix _ SO _ _ _ E) as (Np & pe' & ->). eexists. exists d. split; [reflexivity|]. cbn [pend].
    rewrite sdrop_app. split; [rewrite sapp_assoc; reflexivity|]. rewrite slen_app in L1. unfold Ready. cbn [pend start blen berr src].
    split; [lia|]. split; [exact L2|exact R]. }
  destruct be as [e'|].
  - destruct R as [-> ->]. rewrite sapp_nil_r' in *.
    destruct (split pe true) as [p|] eqn:E.
    + destruct (Found p true E eq_refl) as (b' & d' & Eo & Q & Rb').
      exists (Some p, b'). split.
      * exists 1. intros [|m] Hm; [lia|]. cbn [Scanner.ScanB pend start blen berr src]. rewrite orb_true_r, E. rewrite <- Eo. reflexivity.
      * right; left. exists p, b', d'. auto.
    + exists (None, mkB EmptyString 0 bl (Some e) sr). split.
      * exists 1. intros [|m] Hm; [lia|]. cbn [Scanner.ScanB pend start blen berr src]. rewrite orb_true_r, E. reflexivity.
      * left. split; [destruct pe; [reflexivity|exfalso; eapply (split_total _ SO); [|exact E]; discriminate]|].
        eexists. split; [reflexivity|]. split; [|split; reflexivity]. split; cbn; [lia|]. split; [exact L2|auto].
  - destruct (if Nat.ltb 0 (String.length pe) || false then split pe false else None) as [p|] eqn:E.
    + assert (Es : split pe false = Some p) by (destruct (Nat.ltb 0 (String.length pe)); [exact E|discriminate]).
      pose proof (split_stable _ SO _ _ d Es) as St.
      destruct (Found p false Es St) as (b' & d' & Eo & Q & Rb').
      exists (Some p, b'). split.
      * exists 1. intros [|m] Hm; [lia|]. cbn [Scanner.ScanB pend start blen berr src]. rewrite E. rewrite <- Eo. reflexivity.
      * right; left. exists p, b', d'. auto.
    + set (len := String.length pe) in *.
      set (start1 := if Nat.ltb 0 st && (Nat.eqb (st + len) bl || Nat.ltb (bl / 2) st) then 0 else st).
      set (full := Nat.eqb (start1 + len) bl).
      assert (Fu : full = true -> start1 = 0 /\ len = bl).
      { unfold full. intros F. apply Nat.eqb_eq in F. revert F. unfold start1. destruct (Nat.ltb_spec 0 st) as [H|H]; cbn [andb].
        - destruct (Nat.eqb_spec (st + len) bl); cbn [orb]; [lia|]. destruct (Nat.ltb (bl / 2) st); lia.
        - lia. }
      assert (Ls : start1 + len <= bl) by (unfold start1; destruct (_ && _); lia).
      destruct (full && Nat.leb max_size bl) eqn:Too.
      * apply andb_prop in Too. destruct Too as [F T]. destruct (Fu F) as [F1 F2]. apply Nat.leb_le in T.
        exists (None, mkB pe start1 bl (Some (RErr err_too_long)) sr). split.
        -- exists 1. intros [|m] Hm; [lia|]. cbn [Scanner.ScanB pend start blen berr src]. fold len. rewrite E. fold start1. fold full.
           rewrite F. destruct (Nat.leb_spec max_size bl); [|lia]. reflexivity.
        -- right; right. exists (mkB pe start1 bl (Some (RErr err_too_long)) sr), pe, d. split; [reflexivity|]. split; [reflexivity|].
           split; [reflexivity|]. fold len. split; [lia|]. destruct (Nat.ltb_spec 0 len); [exact E|lia].
      * set (start2 := if full then 0 else start1).
        set (blen2 := if full then Nat.min max_size (if Nat.eqb bl 0 then start_size else bl * 2) else bl).
        assert (Rm : start2 + len < blen2 /\ blen2 <= max_size).
        { unfold start2, blen2. destruct full eqn:F.
          - destruct (Fu eq_refl) as [F1 F2]. cbn [andb] in Too. apply Nat.leb_gt in Too. destruct (Nat.eqb_spec bl 0); lia.
          - unfold full in F. apply Nat.eqb_neq in F. lia. }
        destruct (read_loop_spec (blen2 - (start2 + len)) ltac:(lia) max_empty_reads max_empty_reads sr d (le_n _) R) as (x & er & r' & d' & El & Lx & -> & C).
        destruct (IH (mkB (pe ++ x)%string start2 blen2 er r') d') as (out & [N RO] & C2).
        { cbn [berr]. rewrite slen_app in Hn. destruct C as [[-> ->]|(-> & Nx & _)]; cbn; [lia|]. destruct x; [congruence|]. cbn in Hn. lia. }
        { unfold Ready. cbn [pend start blen berr src]. rewrite slen_app. fold len. split; [lia|]. split; [lia|].
          destruct C as [[-> ->]|(-> & _ & HP)]; auto. }
        exists out. split.
        -- exists (S N). intros [|m] Hm; [lia|]. cbn [Scanner.ScanB pend start blen berr src]. fold len. rewrite E. fold start1. fold full.
           rewrite Too. fold start2. fold blen2. rewrite El. apply RO. lia.
        -- cbn [pend] in C2. rewrite sapp_assoc in C2. exact C2.
Qed.

Variable U : unicode.
Notation next := (btokenizer_next start_size max_size split rd U).

Lemma next_token b p b' : Returns (fun m => ScanB m b) (Some p, b') -> p <> EmptyString -> Steps next b (Some (piece_token U p), None) b'.
Proof.
  intros [N H] Np. exists N. intros m Hm. unfold btokenizer_next. rewrite H by lia. cbn [bind]. rewrite piece_token_ok by exact Np. reflexivity.
Qed.

Lemma next_end b b' : Returns (fun m => ScanB m b) (None, b') -> Steps next b (None, ErrB rd b') b'.
Proof.
  intros [N H]. exists N. intros m Hm. unfold btokenizer_next. rewrite H by lia. cbn [bind]. destruct (ErrB rd b'); reflexivity.
Qed.

Lemma emits_pieces l : forall D, cut_into split D l -> forall b d, (pend b ++ d)%string = D -> Ready b d ->
  (exists b', EmitsX next b (map (piece_token U) l) (match e with EOF => None | RErr er => Some er end) b' /\
     Ready b' EmptyString /\ berr b' = Some e /\ pend b' = EmptyString) \/
  (~ fits max_size split D /\ exists ps q qs b', l = ps ++ q :: qs /\ EmitsX next b (map (piece_token U) ps) (Some err_too_long) b').
Proof.
  induction l as [|p l IH]; intros D C b d E Rb.
  - assert (D = EmptyString) as -> by (rewrite <- (cut_concat _ _ C); reflexivity).
    destruct (ScanB_spec _ b d (Nat.lt_succ_diag_r _) Rb) as (out & R & [(_ & b' & -> & Rb' & Be & Pe)|[(p & b' & d' & -> & Q & S & _)|(b' & x & y & -> & _ & Q & L & _)]]).
    + left. exists b'. split; [|auto]. pose proof (next_end _ _ R) as St. unfold ErrB in St. rewrite Be in St. cbn [map].
      destruct e; [apply EX_eof|eapply EX_err]; exact St.
    + exfalso. rewrite E in S. rewrite split_empty in S. discriminate.
    + exfalso. rewrite E in Q. destruct x; [cbn in L; lia|discriminate].
  - assert (C0 : cut_into split D (p :: l)) by exact C. inversion C as [|p0 D' l0 S C' E0 E1]. subst p0 l0.
    assert (Np : p <> EmptyString) by (eapply (cut_nonempty _ _ C); left; reflexivity).
    destruct (ScanB_spec _ b d (Nat.lt_succ_diag_r _) Rb) as (out & R & [(Q & _)|[(p2 & b' & d' & -> & Q & S2 & Rb')|(b' & x & y & -> & Be & Q & L & Sx)]]).
    + exfalso. rewrite E, <- E0 in Q. destruct p; [congruence|discriminate].
    + rewrite E, <- E0, S in S2. injection S2 as <-. rewrite E, <- E0 in Q. apply sapp_inv_head in Q.
      pose proof (next_token _ _ _ R Np) as St.
      destruct (IH D' C' b' d' (eq_sym Q) Rb') as [(b2 & Em & G)|(NF & ps & q & qs & b2 & El & Em)].
      * left. exists b2. split; [|exact G]. cbn [map]. eapply EX_cons; eassumption.
      * right. split; [intros F; apply NF; eapply fits_tail; [exact S|exact F]|]. exists (p :: ps), q, qs, b2. rewrite El. split; [reflexivity|].
        cbn [map]. eapply EX_cons; eassumption.
    + right. split.
      * rewrite E0. intros F. apply (F [] (p :: l) x y); [exact C0| |exact L|exact Sx]. rewrite (cut_concat _ _ C0), <- Q. symmetry. exact E.
      * exists [], p, l, b'. split; [reflexivity|]. pose proof (next_end _ _ R) as St. unfold ErrB in St. rewrite Be in St. eapply EX_err. exact St.
Qed.

Lemma quiet_end b : Ready b EmptyString /\ berr b = Some EOF /\ pend b = EmptyString ->
  exists b', Steps next b (None, None) b' /\ Ready b' EmptyString /\ berr b' = Some EOF /\ pend b' = EmptyString.
Proof.
  intros ((L1 & L2 & R) & Be & Pe). exists (mkB EmptyString 0 (blen b) (berr b) (src b)). split.
  - exists 1. intros [|m] Hm; [lia|]. unfold btokenizer_next. cbn [Scanner.ScanB]. rewrite Be, Pe, split_empty, orb_true_r. reflexivity.
  - split; [|auto]. unfold Ready. cbn [pend start blen berr src String.length]. rewrite Be in *. split; [lia|auto].
Qed.

Lemma start_ready r d : P max_empty_reads r d -> Ready (NewScanner rd r) d.
Proof. intros H. unfold Ready, NewScanner. cbn. split; [lia|]. split; [lia|exact H]. Qed.

Lemma chunks_lemma r d l : P max_empty_reads r d -> cut_into split d l ->
  ends_with (TokenizeFrom start_size max_size split rd U r) (map (piece_token U) l) e \/
  (~ fits max_size split d /\ exists ps q qs, l = ps ++ q :: qs /\
     Fails (TokenizeFrom start_size max_size split rd U r) (map (piece_token U) ps) err_too_long).
Proof.
  intros HP C. destruct (emits_pieces l d C (NewScanner rd r) d eq_refl (start_ready r d HP)) as [(b' & Em & Rb & Be & Pe)|(NF & ps & q & qs & b' & El & Em)].
  - left. unfold ends_with. destruct e as [|er] eqn:He.
    + eapply (Yields_closure _ (fun b => Ready b EmptyString /\ berr b = Some EOF /\ pend b = EmptyString)); [exact Em| |].
      * intros b Hb. exact (quiet_end b Hb).
      * split; [exact Rb|]. split; [exact Be|exact Pe].
    + eapply Fails_closure, Em.
  - right. split; [exact NF|]. exists ps, q, qs. split; [exact El|]. eapply Fails_closure, Em.
Qed.
End Scan.
End Cut.

Lemma tokens_for U l : (forall x, In x l -> x <> EmptyString) -> Forall2 (fun p t => NewToken U p false = Some t) l (map (piece_token U) l).
Proof.
  induction l as [|x l IH]; intros H; constructor.
  - apply piece_token_ok, H. left. reflexivity.
  - apply IH. intros y I. apply H. right. exact I.
Qed.

Lemma tokens_for_inj U l l1 l2 : Forall2 (fun p t => NewToken U p false = Some t) l l1 -> Forall2 (fun p t => NewToken U p false = Some t) l l2 -> l1 = l2.
Proof.
  intros H. revert l2. induction H as [|p t l l1 E F IH]; intros l2 H2; inversion H2; subst; [reflexivity|]. f_equal; [congruence|auto].
Qed.

Section Theorems.
Variable split : string -> bool -> option string.
Hypothesis SO : split_ok split.
Variable start_size max_size : nat.
Hypothesis S0 : 0 < start_size.
Hypothesis M0 : 0 < max_size.
Variable U : unicode.

Lemma C14_lemma rd r d e : delivers_text rd r d e -> fits max_size split d ->
  exists pieces l, cut_into split d pieces /\ Forall2 (fun p t => NewToken U p false = Some t) pieces l /\
    ends_with (TokenizeFrom start_size max_size split rd U r) l e.
Proof.
  intros (P & Su & HP) F. destruct (cut_total split SO d) as [l C]. exists l, (map (piece_token U) l). split; [exact C|].
  split; [apply tokens_for, (cut_nonempty _ SO _ _ C)|].
  destruct (chunks_lemma split SO start_size max_size S0 M0 rd e P Su U r d l HP C) as [H|[NF _]]; [exact H|contradiction].
Qed.

Lemma C14_same rd1 r1 rd2 r2 d e l : delivers_text rd1 r1 d e -> delivers_text rd2 r2 d e -> fits max_size split d ->
  ends_with (TokenizeFrom start_size max_size split rd1 U r1) l e ->
  ends_with (TokenizeFrom start_size max_size split rd2 U r2) l e.
Proof.
  intros D1 D2 F E. destruct (C14_lemma rd1 r1 d e D1 F) as (p1 & l1 & C1 & T1 & E1). destruct (C14_lemma rd2 r2 d e D2 F) as (p2 & l2 & C2 & T2 & E2).
  rewrite (cut_inj split SO d p2 C2 p1 C1) in T2. rewrite (tokens_for_inj U _ _ _ T2 T1) in E2.
  replace l with l1; [exact E2|]. unfold ends_with in *. destruct e; [exact (Yields_inj _ _ _ E1 E)|exact (proj1 (Fails_inj _ _ _ _ _ E1 E))].
Qed.

Lemma C14_any rd r d e : delivers_text rd r d e ->
  exists ps qs l, cut_into split d (ps ++ qs) /\ Forall2 (fun p t => NewToken U p false = Some t) ps l /\
    ((qs = [] /\ ends_with (TokenizeFrom start_size max_size split rd U r) l e) \/
     (qs <> [] /\ ~ fits max_size split d /\ Fails (TokenizeFrom start_size max_size split rd U r) l err_too_long)).
Proof.
  intros (P & Su & HP). destruct (cut_total split SO d) as [l C].
  destruct (chunks_lemma split SO start_size max_size S0 M0 rd e P Su U r d l HP C) as [H|[NF (ps & q & qs & El & Fa)]].
  - exists l, [], (map (piece_token U) l). rewrite app_nil_r. split; [exact C|]. split; [apply tokens_for, (cut_nonempty _ SO _ _ C)|]. auto.
  - exists ps, (q :: qs), (map (piece_token U) ps). rewrite <- El. split; [exact C|]. split.
    + apply tokens_for. intros x I. apply (cut_nonempty _ SO _ _ C). rewrite El. apply in_or_app. auto.
    + right. split; [discriminate|auto].
Qed.

Lemma C14_model seg rd r d e : delivers_text rd r d e -> fits max_size split d -> (forall x, cut_into split x (seg x)) ->
  forall l, ends_with (Tokenize U (scan_of seg) (mkReader d (match e with EOF => None | RErr er => Some er end))) l e <->
            ends_with (TokenizeFrom start_size max_size split rd U r) l e.
Proof.
  intros D F Sg l. destruct (C14_lemma rd r d e D F) as (p1 & l1 & C1 & T1 & E1).
  rewrite (cut_inj split SO d p1 C1 _ (Sg d)) in T1.
  assert (E2 : ends_with (Tokenize U (scan_of seg) (mkReader d (match e with EOF => None | RErr er => Some er end))) l1 e).
  { rewrite (tokens_for_inj U _ _ _ T1 (tokens_for U _ (cut_nonempty _ SO _ _ (Sg d)))).
    destruct e; cbn [ends_with].
    - apply (Tokenize_yields U (scan_of seg) (mkReader d None)); [apply (cut_nonempty _ SO _ _ (Sg d))|reflexivity].
    - apply (Tokenize_fails U (scan_of seg) (mkReader d (Some e))); [apply (cut_nonempty _ SO _ _ (Sg d))|reflexivity]. }
  unfold ends_with in *. destruct e; split; intros H.
  - rewrite (Yields_inj _ _ _ H E2). exact E1.
  - rewrite (Yields_inj _ _ _ H E1). exact E2.
  - destruct (Fails_inj _ _ _ _ _ H E2) as [-> _]. exact E1.
  - destruct (Fails_inj _ _ _ _ _ H E1) as [-> _]. exact E2.
Qed.
End Theorems.

(** ** Portions *)

Lemma stake_sdrop n s : (stake n s ++ sdrop n s)%string = s.
Proof. revert s; induction n; intros [|c s]; cbn; try reflexivity. now rewrite IHn. Qed.
Lemma stake_len n s : String.length (stake n s) = Nat.min n (String.length s).
Proof. revert s; induction n; intros [|c s]; cbn; try reflexivity. now rewrite IHn. Qed.
Lemma sdrop_len n s : String.length (sdrop n s) = String.length s - n.
Proof. revert s; induction n; intros [|c s]; cbn; try reflexivity. apply IHn. Qed.

Lemma portions_deliver e l : (forall c, In c l -> c <> EmptyString) -> delivers_text (portions e) l (sconcat l) e.
Proof.
  intros NE. exists (fun _ r d => (forall c, In c r -> c <> EmptyString) /\ d = sconcat r). split; [|auto].
  intros k r d room [H ->] R. cbn [rread portions]. destruct r as [|c r].
  - split; [cbn; lia|]. exists EmptyString. auto.
  - destruct (Nat.leb_spec (String.length c) room) as [L|L].
    + split; [exact L|]. exists (sconcat r). split; [reflexivity|]. left. split; [apply H; left; reflexivity|]. split; [|reflexivity].
      intros x I. apply H. right. exact I.
    + split; [rewrite stake_len; lia|]. exists (sconcat (sdrop room c :: r)). cbn [sconcat]. rewrite <- sapp_assoc, stake_sdrop. split; [reflexivity|].
      left. split; [intros Z; apply (f_equal String.length) in Z; rewrite stake_len in Z; cbn in Z; lia|]. split; [|reflexivity].
      intros x [<-|I]; [|apply H; right; exact I]. intros Z; apply (f_equal String.length) in Z; rewrite sdrop_len in Z; cbn in Z; lia.
Qed.

Lemma slen_sconcat_app ps qs : String.length (sconcat (ps ++ qs)) = String.length (sconcat ps) + String.length (sconcat qs).
Proof. induction ps as [|p ps IH]; cbn [app sconcat]; [reflexivity|]. rewrite !slen_app, IH. lia. Qed.

(** A text shorter than the buffer fits. *)
Lemma short_fits split mx d : String.length d < mx -> fits mx split d.
Proof.
  intros L ps qs x y C E Lx _. rewrite <- (cut_concat _ _ _ C), slen_sconcat_app, E, slen_app in L. lia.
Qed.
