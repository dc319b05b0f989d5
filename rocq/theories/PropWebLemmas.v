(** * PropWebLemmas: proofs about the web service. *)

From Verif Require Import Base Utf8 Unicode UnicodeData Token Stream StreamSpec Queue Tokenizer Html Words WordsProofs Trie Synonyms ChainSpec SynSpec Web WebSpec
  StreamProofs TokenProofs FilterProofs ScannerProofs PropSynLemmas PropSynLemmas3.
Local Open Scope string_scope.

(** ** Paths *)

Lemma split_slash_cons s : exists x l, split_slash s = x :: l.
Proof. destruct s as [|c r]; cbn; [eauto|]. destruct (Ascii.eqb c "/"); [eauto|]. destruct (split_slash r); eauto. Qed.

Lemma split_slash_app x r : without "/" x -> split_slash (x ++ String "/" r) = x :: split_slash r.
Proof.
  induction x as [|c x IH]; cbn; [reflexivity|]. intros [N W]. destruct (Ascii.eqb_spec c "/"); [contradiction|]. rewrite (IH W). reflexivity.
Qed.
Lemma split_slash_none x : without "/" x -> split_slash x = [x].
Proof.
  induction x as [|c x IH]; cbn; [reflexivity|]. intros [N W]. destruct (Ascii.eqb_spec c "/"); [contradiction|]. rewrite (IH W). reflexivity.
Qed.

Lemma slash_cases p : without "/" p \/ exists x r, p = x ++ String "/" r /\ without "/" x.
Proof.
  induction p as [|c p IH]; cbn; [auto|]. destruct (Ascii.eqb_spec c "/") as [->|N].
  - right. exists "", p. cbn. auto.
  - destruct IH as [IH|(x & r & -> & W)]; [auto|]. right. exists (String c x), r. cbn. auto.
Qed.

Lemma first_segment_split p seg : first_segment p seg -> exists x l, split_slash p = x :: seg :: l.
Proof.
  intros (x & rest & -> & W & Ws & R). rewrite (split_slash_app _ _ W). destruct R as [->|(r & ->)].
  - rewrite sapp_nil_r', (split_slash_none _ Ws). eauto.
  - rewrite (split_slash_app _ _ Ws). eauto.
Qed.

Lemma split_first_segment p x seg l : split_slash p = x :: seg :: l -> first_segment p seg.
Proof.
  destruct (slash_cases p) as [W|(y & r & -> & W)]; [rewrite (split_slash_none _ W); discriminate|]. rewrite (split_slash_app _ _ W). intros E. injection E as <- E.
  exists y. destruct (slash_cases r) as [Wr|(z & q & -> & Wr)].
  - rewrite (split_slash_none _ Wr) in E. injection E as <- <-. exists "". rewrite sapp_nil_r'. auto.
  - rewrite (split_slash_app _ _ Wr) in E. injection E as <- <-. exists (String "/" q). eauto 8.
Qed.

(** ** Escaping *)

Lemma escape_char_spec c : special c (escape_char c) \/ ((forall x, ~ special c x) /\ escape_char c = String c "").
Proof.
  destruct c as [b0 b1 b2 b3 b4 b5 b6 b7].
  destruct b0, b1, b2, b3, b4, b5, b6, b7; try (left; constructor); right; (split; [intros x H; inversion H|reflexivity]).
Qed.

Lemma escape_escaped s : escaped s (escape s).
Proof.
  induction s as [|c s IH]; cbn; [constructor|]. destruct (escape_char_spec c) as [H|[H E]]; [apply E_special; assumption|]. rewrite E. apply E_plain; assumption.
Qed.

Lemma special_inj c x y : special c x -> special c y -> x = y.
Proof. intros H1 H2. inversion H1; subst; inversion H2; reflexivity. Qed.

Lemma escaped_inj s : forall a b, escaped s a -> escaped s b -> a = b.
Proof.
  induction s as [|c s IH]; intros a b H1 H2; inversion H1; subst; inversion H2; subst; try reflexivity.
  - f_equal; [eapply special_inj; eassumption|apply IH; assumption].
  - exfalso. match goal with H : forall x, ~ special _ x |- _ => eapply H; eassumption end.
  - exfalso. match goal with H : forall x, ~ special _ x |- _ => eapply H; eassumption end.
  - f_equal. apply IH; assumption.
Qed.

Lemma without_app c a b : without c a -> without c b -> without c (a ++ b).
Proof. induction a as [|x a IH]; cbn; [auto|]. intros [N W] Wb. auto. Qed.

Lemma escaped_harmless s e : escaped s e -> harmless e.
Proof.
  intros E. assert (e = escape s) as -> by (eapply escaped_inj; [exact E|apply escape_escaped]). clear E. unfold harmless.
  induction s as [|c s (A & B & C & D)]; cbn; [auto|].
  destruct (escape_char_spec c) as [H|[H E]].
  - inversion H; cbn; repeat split; auto; discriminate.
  - rewrite E. cbn. repeat split; auto; intros ->; eapply H; constructor.
Qed.

Lemma shown_escape s : forall r, shown Text (escape s ++ r) = no_nul s ++ shown Text r.
Proof.
  induction s as [|c s IH]; intros r; [reflexivity|]. cbn [escape no_nul]. rewrite sapp_assoc.
  destruct (escape_char_spec c) as [H|[H E]].
  - inversion H as [Hc Hx|Hc Hx|Hc Hx|Hc Hx|Hc Hx|Hc Hx|Hc Hx]; subst c; cbn - [escape]; rewrite IH; reflexivity.
  - rewrite E. cbn - [escape]. destruct (Ascii.eqb_spec c "<") as [->|_]; [exfalso; eapply H; constructor|].
    destruct (Ascii.eqb_spec c "&") as [->|_]; [exfalso; eapply H; constructor|].
    destruct (Ascii.eqb_spec c "000") as [->|_]; [exfalso; eapply H; constructor|]. rewrite IH. reflexivity.
Qed.

Lemma shown_span s r : shown Text (span_open ++ escape s ++ span_close ++ r) = no_nul s ++ shown Text r.
Proof. unfold span_open, quote. cbn - [escape]. rewrite shown_escape. reflexivity. Qed.

Definition render (t : token) : string := if tlemma t then lemma_Execute t else plain_Execute t.

Lemma render_rendered t : rendered t (render t).
Proof.
  exists (escape (tvalue t)). split; [apply escape_escaped|]. unfold render, lemma_Execute, plain_Execute, span_open, span_close, quote.
  destruct (tlemma t); [|reflexivity]. rewrite !sapp_assoc. reflexivity.
Qed.

Lemma rendered_inj t s : rendered t s -> s = render t.
Proof.
  intros (e & E & ->). rewrite (escaped_inj _ _ _ E (escape_escaped _)). destruct (render_rendered t) as (e' & E' & ->).
  rewrite (escaped_inj _ _ _ E' (escape_escaped _)). reflexivity.
Qed.

Lemma page_render l : page l (sconcat (map render l)).
Proof. exists (map render l). split; [|reflexivity]. induction l; constructor; auto using render_rendered. Qed.

Lemma page_inj l s : page l s -> s = sconcat (map render l).
Proof.
  intros (ps & F & ->). f_equal. induction F as [|t p l ps R F IH]; [reflexivity|]. cbn. f_equal; [apply rendered_inj, R|exact IH].
Qed.

Lemma no_nul_app a b : no_nul (a ++ b) = no_nul a ++ no_nul b.
Proof. induction a as [|c a IH]; [reflexivity|]. cbn. rewrite IH. destruct (Ascii.eqb c "000"); reflexivity. Qed.

Lemma shown_page l : shown Text (sconcat (map render l)) = no_nul (text l).
Proof.
  unfold text. induction l as [|t l IH]; [reflexivity|]. cbn [map sconcat]. rewrite no_nul_app, <- IH. unfold render, lemma_Execute, plain_Execute.
  destruct (tlemma t); [|apply shown_escape]. rewrite !sapp_assoc. apply shown_span.
Qed.

Lemma no_nul_id s : without "000" s -> no_nul s = s.
Proof. induction s as [|c s IH]; [reflexivity|]. cbn. intros [N W]. destruct (Ascii.eqb_spec c "000"); [contradiction|]. rewrite (IH W). reflexivity. Qed.

Lemma C57_lemma l s : page l s ->
  (exists ps es, s = sconcat ps /\ Forall2 (fun t e => escaped (tvalue t) e /\ harmless e) l es /\
     Forall2 (fun te p => p = if tlemma (fst te) then "<span class=" ++ String "034" ("lemma" ++ String "034" ">") ++ snd te ++ "</span>" else snd te) (combine l es) ps) /\
  shown Text s = no_nul (text l) /\ (without "000" (text l) -> shown Text s = text l).
Proof.
  intros P. split; [|rewrite (page_inj _ _ P), shown_page; split; [reflexivity|apply no_nul_id]].
  destruct P as (ps & F & ->). exists ps. induction F as [|t p l ps (e & E & ->) F (es & _ & H1 & H2)]; [exists []; repeat split; constructor|].
  exists (e :: es). split; [reflexivity|]. split; constructor; auto. split; [exact E|eapply escaped_harmless, E].
Qed.

(** ** Handlers *)

Section Handlers.
Variable U : unicode.
Variable scan : oracle.
Variable parse : reader -> hparser.
Variable Tags : Filter.
Variable conn : writer.
Variable acc : wstate conn -> string.
Hypothesis Rel : reliable conn acc.

Lemma rWrite_spec s (r : response conn) : exists r', rWrite s r = ((String.length s, None), r') /\ acc (rws r') = acc (rws r) ++ s /\
  rstatus r' = Some (status r, sent r) /\ rheaders r' = rheaders r.
Proof.
  unfold rWrite, WriteHeader, status, sent. destruct (rstatus r) as [[n h]|] eqn:S; cbn [rws rstatus rheaders].
  - destruct (Rel (rws r) s) as (ws & E & A). rewrite E. eexists. split; [reflexivity|]. cbn. auto.
  - destruct (Rel (rws r) s) as (ws & E & A). rewrite E. eexists. split; [reflexivity|]. cbn. auto.
Qed.

Lemma send_spec b (r : response conn) : exists r', send conn b r = Ret r' /\ acc (rws r') = acc (rws r) ++ b /\ status r' = status r /\ sent r' = sent r.
Proof.
  unfold send. destruct (Nat.eqb_spec (String.length b) 0) as [E|E].
  - exists r. apply slen_0 in E. subst b. rewrite sapp_nil_r'. auto.
  - destruct (rWrite_spec b r) as (r' & W & A & S & H). rewrite W, Nat.ltb_irrefl. exists r'. split; [reflexivity|]. split; [exact A|].
    split; [unfold status at 1|unfold sent at 1]; rewrite S; reflexivity.
Qed.

Lemma render_pulls s l s1 : Pulls s l s1 -> forall b (r r' : response conn) b',
  Returns2 (fun fuel k => render_loop conn fuel k (b ++ sconcat (map render l)) r s1) (b', r') ->
  Returns2 (fun fuel k => render_loop conn fuel k b r s) (b', r').
Proof.
  induction 1 as [s|s t s1 l s2 [m N] P IH]; intros b r r' b' R.
  - cbn in R. rewrite sapp_nil_r' in R. exact R.
  - eapply (Returns2_step _ _ _ m); [intros fuel k Hf; cbn [render_loop]; rewrite N by lia; cbn [bind]; reflexivity|].
    fold (render t). apply IH. rewrite sapp_assoc. exact R.
Qed.

Lemma render_end s o e s1 (b : string) (r : response conn) : Nexts s (o, e) s1 -> o = None ->
  Returns2 (fun fuel k => render_loop conn fuel k b r s) (b, match e with Some _ => WriteHeader 500 r | None => r end).
Proof.
  intros [m N] ->. eapply (Returns2_step _ (fun _ _ => Ret (b, match e with Some _ => WriteHeader 500 r | None => r end)) _ m); [|apply Returns2_const].
  intros fuel k Hf. cbn [render_loop]. rewrite N by lia. reflexivity.
Qed.

Lemma Emits_Pulls s l s' : Emits s l None s' -> exists s1, Pulls s l s1 /\ Nexts s1 (None, None) s'.
Proof.
  remember None as e eqn:Ee. induction 1 as [s s' N|s o e s' N|s t s1 l e s2 N E IH]; [|discriminate|].
  - exists s. split; [constructor|exact N].
  - destruct (IH Ee) as (s3 & P & Q). exists s3. split; [econstructor; eassumption|exact Q].
Qed.

(** Both kinds of ends. *)
Lemma jargon_run q seg s l (e : option error) s1 s2 (r : response conn) : rstatus r = None -> first_segment (path q) seg -> request_tokens U scan parse q seg s ->
  Pulls (ApplyFilters [Tags] s) l s1 -> Nexts s1 (None, e) s2 ->
  exists r', Returns (fun fuel => jargonHandler U scan parse Tags conn fuel q r) r' /\
    status r' = (match e with Some _ => 500 | None => 200 end)%N /\ page l (sconcat (map render l)) /\
    acc (rws r') = acc (rws r) ++ sconcat (map render l) /\ sent r' = sent r.
Proof.
  intros S Fs Rq P N.
  destruct (first_segment_split _ _ Fs) as (x & rest & Sp).
  pose proof (Returns2_diag _ _ (render_pulls _ _ _ P "" r _ _ (render_end _ _ _ _ _ _ N eq_refl))) as [m R].
  destruct (send_spec ("" ++ sconcat (map render l)) (match e with Some _ => WriteHeader 500 r | None => r end)) as (r' & Se & A & St & H).
  exists r'. split.
  - exists m. intros k Hk. unfold jargonHandler. rewrite Sp.
    destruct Rq as [[-> ->]|[-> ->]]; cbn [seqb String.eqb Ascii.eqb Bool.eqb]; rewrite R by exact Hk; cbn [bind]; exact Se.
  - rewrite St, A, H. cbn [append]. unfold status, sent, WriteHeader. rewrite S. destruct e; cbn; rewrite ?S; auto using page_render.
Qed.

Lemma cors_status (r : response conn) : rstatus (cors conn r) = rstatus r /\ rws (cors conn r) = rws r.
Proof. split; reflexivity. Qed.

Lemma main_run q seg s l (e : option error) s1 s2 (r : response conn) : untouched acc r -> method q <> "OPTIONS" -> first_segment (path q) seg -> request_tokens U scan parse q seg s ->
  Pulls (ApplyFilters [Tags] s) l s1 -> Nexts s1 (None, e) s2 ->
  exists r', Returns (fun fuel => mainHandler U scan parse Tags conn fuel q r) r' /\
    status r' = (match e with Some _ => 500 | None => 200 end)%N /\ page l (acc (rws r')) /\ sent r' = sent (cors conn r).
Proof.
  intros [S A0] M Fs Rq P N. destruct (jargon_run q seg s l e s1 s2 (cors conn r) S Fs Rq P N) as (r' & R & St & Pg & A & H).
  exists r'. split; [|split; [exact St|split; [|exact H]]].
  - destruct R as [m R]. exists m. intros k Hk. unfold mainHandler, seqb. destruct (String.eqb_spec (method q) "OPTIONS"); [contradiction|]. apply R, Hk.
  - rewrite A, (proj2 (cors_status r)), A0. exact Pg.
Qed.

Lemma NotFound_spec (r : response conn) : rstatus r = None -> status (NotFound r) = 404%N /\ acc (rws (NotFound r)) = acc (rws r) ++ "404 page not found" ++ String "010" "".
Proof.
  intros S. unfold NotFound.
  destruct (rWrite_spec ("404 page not found" ++ String "010" "") (WriteHeader 404 (set_header "X-Content-Type-Options" "nosniff" (set_header "Content-Type" "text/plain; charset=utf-8" r)))) as (r' & W & A & St & H).
  rewrite W. cbn [snd]. rewrite A. unfold status. rewrite St. unfold status, WriteHeader. cbn. rewrite S. auto.
Qed.

Lemma C56_lemma fuel q (r : response conn) : untouched acc r ->
  (method q = "OPTIONS" -> exists r', mainHandler U scan parse Tags conn fuel q r = Ret r' /\ status r' = 200%N /\ acc (rws r') = "") /\
  (method q <> "OPTIONS" -> (forall seg, first_segment (path q) seg -> seg <> "text" /\ seg <> "html") ->
     exists r', mainHandler U scan parse Tags conn fuel q r = Ret r' /\ status r' = 404%N /\ acc (rws r') = "404 page not found" ++ String "010" "") /\
  (method q <> "OPTIONS" -> forall seg s l, first_segment (path q) seg -> request_tokens U scan parse q seg s -> Yields (ApplyFilters [Tags] s) l ->
     exists r', Returns (fun fuel => mainHandler U scan parse Tags conn fuel q r) r' /\ status r' = 200%N /\ page l (acc (rws r'))).
Proof.
  intros Un. pose proof Un as [S A0]. split; [|split].
  - intros M. unfold mainHandler, seqb. rewrite M. exists (cors conn r). split; [reflexivity|]. unfold status. cbn. rewrite S. auto.
  - intros M Hs. unfold mainHandler, seqb. destruct (String.eqb_spec (method q) "OPTIONS"); [contradiction|]. exists (NotFound (cors conn r)).
    destruct (NotFound_spec (cors conn r) S) as [H1 H2]. rewrite (proj2 (cors_status r)), A0 in H2. split; [|auto].
    unfold jargonHandler. destruct (split_slash (path q)) as [|x [|seg l]] eqn:E; [reflexivity|reflexivity|].
    destruct (Hs seg (split_first_segment _ _ _ _ E)) as [N1 N2]. unfold seqb. destruct (String.eqb_spec seg "text"); [contradiction|].
    destruct (String.eqb_spec seg "html"); [contradiction|]. reflexivity.
  - intros M seg s l Fs Rq (s' & E & _). destruct (Emits_Pulls _ _ _ E) as (s1 & P & N). destruct (main_run q seg s l None s1 s' r Un M Fs Rq P N) as (r' & R & St & Pg & _). eauto.
Qed.

Lemma C58_lemma q seg s l e (r : response conn) : untouched acc r -> method q <> "OPTIONS" -> first_segment (path q) seg -> request_tokens U scan parse q seg s ->
  Breaks (ApplyFilters [Tags] s) l e ->
  exists r', Returns (fun fuel => mainHandler U scan parse Tags conn fuel q r) r' /\ status r' = 500%N /\ page l (acc (rws r')).
Proof.
  intros Un M Fs Rq (s1 & s2 & P & N). destruct (main_run q seg s l (Some e) s1 s2 r Un M Fs Rq P N) as (r' & R & St & Pg & _). eauto.
Qed.

(** *** Headers; here the connection may fail *)

Lemma sent_WriteHeader n (r : response conn) : sent (WriteHeader n r) = sent r.
Proof. unfold sent, WriteHeader. destruct (rstatus r) as [[m h]|] eqn:S; cbn; rewrite ?S; reflexivity. Qed.
Lemma sent_rWrite v (r : response conn) : sent (snd (rWrite v r)) = sent r.
Proof.
  unfold rWrite. rewrite <- (sent_WriteHeader 200 r). destruct (wwrite conn _ v) as [x ws]. unfold sent, WriteHeader.
  destruct (rstatus r) as [[m h]|] eqn:S; cbn; rewrite ?S; reflexivity.
Qed.
Lemma sent_send b (r r' : response conn) : send conn b r = Ret r' -> sent r' = sent r.
Proof.
  unfold send. destruct (Nat.eqb (String.length b) 0); [congruence|]. pose proof (sent_rWrite b r) as W. destruct (rWrite b r) as [[n err] r1]. cbn in W.
  destruct (Nat.ltb (String.length b) n); [discriminate|]. destruct (match err with Some _ => true | None => _ end); intros E; injection E as <-; [rewrite sent_WriteHeader|]; exact W.
Qed.
Lemma sent_render fuel k : forall b (r : response conn) s b' r', render_loop conn fuel k b r s = Ret (b', r') -> sent r' = sent r.
Proof.
  induction k as [|k IH]; intros b r s b' r' E; [discriminate|]. cbn [render_loop] in E. destruct (Next fuel s) as [[[t err] s']| |]; try discriminate. cbn [bind] in E.
  assert (X : forall r1 : response conn, match err with Some _ => WriteHeader 500 r | None => r end = r1 -> sent r1 = sent r) by (intros r1 <-; destruct err; [apply sent_WriteHeader|reflexivity]).
  destruct t as [t|].
  - apply IH in E. rewrite E. now apply X.
  - injection E as _ <-. now apply X.
Qed.

Lemma sent_jargon fuel q (r r' : response conn) : jargonHandler U scan parse Tags conn fuel q r = Ret r' -> sent r' = sent r \/ r' = NotFound r.
Proof.
  unfold jargonHandler. destruct (split_slash (path q)) as [|x [|route l]]; try (intros E; injection E as <-; now right).
  destruct (if seqb route "text" then _ else _) as [s|]; [|intros E; injection E as <-; now right].
  destruct (render_loop conn fuel fuel "" r (ApplyFilters [Tags] s)) as [[b r1]| |] eqn:R; try discriminate. cbn [bind]. intros E.
  left. rewrite (sent_send _ _ _ E). exact (sent_render _ _ _ _ _ _ _ R).
Qed.

Lemma In_set_header k v (r : response conn) k' v' : In (k', v') (rheaders (set_header k v r)) <-> (k' <> k /\ In (k', v') (rheaders r)) \/ (k' = k /\ v' = v).
Proof.
  cbn [set_header rheaders]. rewrite in_app_iff, filter_In. cbn [fst]. unfold seqb. destruct (String.eqb_spec k' k) as [->|N]; cbn [negb In]; split.
  - intros [[_ X]|[E|[]]]; [discriminate|]. injection E as <-. now right.
  - intros [[X _]|[_ ->]]; [congruence|]. right. now left.
  - intros [[I _]|[E|[]]]; [now left|]. congruence.
  - intros [[_ I]|[-> _]]; [left; now split|congruence].
Qed.

Lemma sent_NotFound (r : response conn) : rstatus r = None -> status (NotFound r) = 404%N /\
  sent (NotFound r) = rheaders (set_header "X-Content-Type-Options" "nosniff" (set_header "Content-Type" "text/plain; charset=utf-8" r)).
Proof.
  intros S. unfold NotFound, rWrite, WriteHeader, set_header, sent, status. cbn [rstatus rheaders rws]. rewrite S. cbn [rstatus rheaders rws].
  destruct (wwrite conn (rws r) _) as [x ws]. cbn [snd rstatus]. split; reflexivity.
Qed.

Lemma C75_lemma fuel q (r r' : response conn) : rstatus r = None -> serve U scan parse Tags conn fuel q r = Ret r' ->
  header r' "Access-Control-Allow-Origin" "*" /\ header r' "Access-Control-Allow-Headers" "X-Requested-With" /\
  (forall k v, In (k, v) (sent r') -> In (k, v) (rheaders r) \/ In (k, v) cors_headers \/ (status r' = 404%N /\ In (k, v) plain_headers)).
Proof.
  intros S E.
  assert (C : sent r' = sent (cors conn r) \/ r' = NotFound (cors conn r)).
  { unfold serve, mainHandler in E. destruct (seqb (path q) "/_ah/health").
    - injection E as <-. left. apply sent_rWrite.
    - destruct (seqb (method q) "OPTIONS"); [injection E as <-; now left|]. exact (sent_jargon _ _ _ _ E). }
  assert (S0 : sent (cors conn r) = rheaders (cors conn r)) by (unfold sent; cbn; rewrite S; reflexivity).
  assert (H : (sent r' = rheaders (cors conn r)) \/ (status r' = 404%N /\ sent r' = rheaders (set_header "X-Content-Type-Options" "nosniff" (set_header "Content-Type" "text/plain; charset=utf-8" (cors conn r))))).
  { destruct C as [C|C]; [left; congruence|subst r']. right. apply sent_NotFound. exact S. }
  unfold header. destruct H as [H|[St H]]; rewrite H; clear H; unfold cors; repeat setoid_rewrite In_set_header; cbn [cors_headers plain_headers In].
  - split; [|split].
    + split; [left; split; [discriminate|]; right; now split|]. intros v' [[_ [[X _]|[_ ->]]]|[X _]]; [congruence|reflexivity|discriminate].
    + split; [right; now split|]. intros v' [[X _]|[_ ->]]; [congruence|reflexivity].
    + intros k v H; repeat (destruct H as [H|H] || destruct H as [? H]); subst; auto 8.
  - split; [|split].
    + split; [do 3 (left; split; [discriminate|]); right; now split|]. intros v' [[_ [[_ [[_ [[X _]|[_ ->]]]|[X _]]]|[X _]]]|[X _]]; try reflexivity; try discriminate; congruence.
    + split; [do 2 (left; split; [discriminate|]); right; now split|]. intros v' [[_ [[_ [[X _]|[_ ->]]]|[X _]]]|[X _]]; try reflexivity; try discriminate; congruence.
    + intros k v H; repeat (destruct H as [H|H] || destruct H as [? H]); subst; auto 12.
Qed.

Lemma C75_health_lemma fuel q (r : response conn) : untouched acc r -> path q = "/_ah/health" ->
  exists r', serve U scan parse Tags conn fuel q r = Ret r' /\ status r' = 200%N /\ acc (rws r') = "ok".
Proof.
  intros [S A] P. unfold serve. rewrite P. change (seqb "/_ah/health" "/_ah/health") with true. cbv iota. eexists. split; [reflexivity|].
  unfold healthCheckHandler. destruct (rWrite_spec "ok" (cors conn r)) as (r' & W & Ac & St & _). rewrite W. cbn [snd]. rewrite Ac. unfold status at 1. rewrite St.
  unfold status. cbn [cors set_header rstatus rws]. rewrite S, A. split; reflexivity.
Qed.

Lemma C75_others_lemma q : path q <> "/_ah/health" ->
  forall fuel (r : response conn), serve U scan parse Tags conn fuel q r = mainHandler U scan parse Tags conn fuel q r.
Proof. intros N fuel r. unfold serve, seqb. destruct (String.eqb_spec (path q) "/_ah/health"); [contradiction|reflexivity]. Qed.

End Handlers.

Lemma C75_address_lemma : address "" = ":8080" /\ forall port, port <> "" -> address port = ":" ++ port.
Proof. split; [reflexivity|]. intros port N. unfold address, seqb. destruct (String.eqb_spec port ""); [contradiction|reflexivity]. Qed.

(** A synonyms filter reports errors without a token. *)
Lemma syn_no_token U b fuel st o e st' : syn_closure U None b fuel st = Ret ((o, Some e), st') -> o = None.
Proof.
  unfold syn_closure, syn_next. destruct (negb _); [intros E; injection E as <-; reflexivity|]. destruct (q_any _).
  - destruct (q_pop _) as [[t q']| |]; discriminate.
  - destruct (syn_loop _ _ _ _ _) as [[[e1|] st1]| |]; cbn [bind]; try discriminate; [intros E; injection E as <-; reflexivity|].
    destruct (q_flushto _ _) as [b1 o1]. destruct (q_any o1); [|discriminate]. destruct (q_pop o1) as [[t q']| |]; discriminate.
Qed.

Lemma syn_breaks U scan ms ic ig D b : scanner_ok scan -> uIsSpace U 44 = false -> dictionary_of (key_tokens U scan) ms D -> built_from U scan ms ic ig b ->
  forall s l e, Fails s l e -> Breaks (SynFilter U None b s) [] e.
Proof.
  intros SC Co Di Bu s l e F. destruct (C42_synonyms_lemma U scan SC Co ms ic ig D b Di Bu s l e F) as [s' E].
  inversion E as [|? o ? ? N|]; subst. exists (SynFilter U None b s), s'. split; [constructor|].
  assert (o = None) as ->; [|exact N]. destruct N as [m N]. specialize (N m (le_n m)). unfold Next, SynFilter, NewTokenStream in N. cbn [closure ts_next] in N.
  destruct (syn_closure U None b m _) as [[r x']| |] eqn:Es; try discriminate. injection N as -> _. eapply syn_no_token, Es.
Qed.

Lemma C58_synonyms U scan parse conn acc ms ic ig D b : reliable conn acc -> scanner_ok scan -> uIsSpace U 44 = false ->
  dictionary_of (key_tokens U scan) ms D -> built_from U scan ms ic ig b ->
  forall q seg s l e (r : response conn), untouched acc r -> method q <> "OPTIONS" -> first_segment (path q) seg -> request_tokens U scan parse q seg s -> Fails s l e ->
  exists r', Returns (fun fuel => mainHandler U scan parse (SynFilter U None b) conn fuel q r) r' /\ status r' = 500%N /\ acc (rws r') = "".
Proof.
  intros Rel SC Co Di Bu q seg s l e r Un M Fs Rq F.
  destruct (C58_lemma U scan parse (SynFilter U None b) conn acc Rel q seg s [] e r Un M Fs Rq (syn_breaks _ _ _ _ _ _ _ SC Co Di Bu _ _ _ F)) as (r' & R & St & Pg).
  exists r'. split; [exact R|]. split; [exact St|]. apply page_inj in Pg. exact Pg.
Qed.

(** ** C57 refuted: NUL *)
Definition sink : writer := mkWriter string (fun ws v => ((String.length v, None), (ws ++ v)%string)).
Lemma sink_reliable : reliable sink (fun ws => ws).
Proof. intros ws v. exists (ws ++ v)%string. split; reflexivity. Qed.

Lemma C57_refute : ~ (forall U scan parse Tags conn acc q (r r' : response conn) seg s l, scanner_ok scan -> reliable conn acc -> untouched acc r -> method q <> "OPTIONS" ->
  first_segment (path q) seg -> request_tokens U scan parse q seg s -> Yields (ApplyFilters [Tags] s) l ->
  Returns (fun fuel => mainHandler U scan parse Tags conn fuel q r) r' -> shown Text (acc (rws r')) = text l).
Proof.
  intros H.
  set (q := mkRequest "POST" "/text" (mkReader (String "000" "") None)).
  assert (Y : Yields (ApplyFilters [fun s => s] (Tokenize go_unicode words_scan (rbody q))) [piece_token go_unicode (String "000" "")]).
  { cbn [ApplyFilters fold_left]. apply (Tokenize_yields go_unicode words_scan (rbody q)); [apply (scan_nonempty _ words_scan_ok)|reflexivity]. }
  set (r0 := mkResponse (w := sink) None [] "").
  destruct (C56_lemma go_unicode words_scan (fun _ => mkHP [] None) (fun s => s) sink (fun ws => ws) sink_reliable 0 q r0 (conj eq_refl eq_refl)) as (_ & _ & C).
  assert (Fs : first_segment (path q) "text").
  { exists "", "". cbn. repeat split; auto; discriminate. }
  destruct (C ltac:(discriminate) "text" _ _ Fs (or_introl (conj eq_refl eq_refl)) Y) as (r' & R & _ & Pg).
  specialize (H go_unicode words_scan (fun _ => mkHP [] None) (fun s => s) sink (fun ws => ws) q r0 r' "text" _ _ words_scan_ok sink_reliable (conj eq_refl eq_refl) ltac:(discriminate) Fs (or_introl (conj eq_refl eq_refl)) Y R).
  apply page_inj in Pg. rewrite Pg in H. vm_compute in H. discriminate H.
Qed.

(** A request to the service with a small dictionary. *)
Definition ask (m p : string) (body : reader) : option (N * string) :=
  match build go_unicode words_scan 30 (mkConfig [("ruby on rails", "ruby-on-rails")] true [32; 45]%N) with
  | Ret (None, b) =>
    match mainHandler go_unicode words_scan (fun _ => mkHP [] None) (SynFilter go_unicode None b) sink 60 (mkRequest m p body) (mkResponse (w := sink) None [] "") with
    | Ret r => Some (status r, rws r)
    | _ => None
    end
  | _ => None
  end.
