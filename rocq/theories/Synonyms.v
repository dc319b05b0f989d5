(** * Synonyms: model of /repo/filters/synonyms/filter.go (String, Decl: Decl.v) *)

From Verif Require Import Base Utf8 Unicode Token Stream Queue Tokenizer Trie.

(** synonyms/filter.go:24-28 config; the map in the order in which Go iterates over it. *)
Record config := mkConfig {
  cf_mappings : list (string * string);
  cf_ignoreCase : bool;
  cf_ignoreRunes : list N
}.

(** What build() fills in: filter.go:20-21.  A [nil] trie is [None]; maxWords is then 0. *)
Record built := mkBuilt { b_trie : option trie; b_maxWords : nat }.

Section WithUnicode.
Variable U : unicode.
Variable scan : oracle.

(** filter.go:89-99 updateMaxWords *)
Definition count_words (tokens : list token) : nat :=
  length (filter (fun t => negb (tspace t) && negb (tpunct t)) tokens).
Definition updateMaxWords (tokens : list token) (maxWords : nat) : nat :=
  let words := count_words tokens in
  if Nat.ltb maxWords words then words else maxWords.

Definition comma : string := ","%string.

(** [tokens[a:b]] *)
Definition slice {A} (l : list A) (a b : nat) : list A := firstn (b - a) (skipn a l).

(** filter.go:54-71: the loop over the tokens of one key.  [todo] are the tokens from index [i]
    on, [all] all of them. *)
Fixpoint split_loop (all : list token) (canonical : string) (todo : list token) (i start : nat)
    (skipSpaces : bool) (acc : trie * nat) : nat * (trie * nat) :=
  match todo with
  | [] => (start, acc)
  | tok :: rest =>
    if skipSpaces && tspace tok then split_loop all canonical rest (S i) (S start) skipSpaces acc
    else if seqb (tvalue tok) comma then
      let sl := slice all start i in
      split_loop all canonical rest (S i) (S i) true
        (trie_Add U (fst acc) sl canonical, updateMaxWords sl (snd acc))
    else split_loop all canonical rest (S i) start false acc
  end.

(** filter.go:47-76: one entry of the mappings. *)
Definition build_entry (fuel : nat) (synonyms canonical : string) (acc : trie * nat)
  : outcome (option error * (trie * nat)) :=
  do (res, _) <- ToSlice fuel (TokenizeString U scan synonyms);
  match res with
  | (_, Some e) => Ret (Some e, acc)
  | (tokens, None) =>
    let '(start, acc1) := split_loop tokens canonical tokens 0 0 true acc in
    let sl := skipn start tokens in
    Ret (None, (trie_Add U (fst acc1) sl canonical, updateMaxWords sl (snd acc1)))
  end.

Fixpoint build_loop (fuel : nat) (mappings : list (string * string)) (acc : trie * nat)
  : outcome (option error * (trie * nat)) :=
  match mappings with
  | [] => Ret (None, acc)
  | (syn, can) :: rest =>
    do (err, acc') <- build_entry fuel syn can acc;
    match err with
    | Some e => Ret (Some e, acc')
    | None => build_loop fuel rest acc'
    end
  end.

(** filter.go:43-87 build.  On error the filter keeps its nil trie and maxWords 0. *)
Definition build (fuel : nat) (c : config) : outcome (option error * built) :=
  do (err, acc) <-
    build_loop fuel (cf_mappings c) (trie_New (cf_ignoreCase c) (cf_ignoreRunes c), 1);
  match err with
  | Some e => Ret (Some e, mkBuilt None 0)
  | None => Ret (None, mkBuilt (Some (fst acc)) (snd acc))
  end.

(** filter.go:128-136 [tokens] *)
Record synst := mkSyn { y_in : TokenStream; y_buf : queue; y_out : queue }.

(** filter.go:199-209: leading buffered space & punct go to outgoing; returns [drop]. *)
Fixpoint lead_loop (buf : list token) (out : queue) : nat * queue :=
  match buf with
  | t :: rest =>
    if tspace t || tpunct t then
      let '(d, out') := lead_loop rest (q_push out [t]) in (S d, out')
    else (0, out)
  | [] => (0, out)
  end.

(** filter.go:214-223: [for t.incoming.Scan() {...}] *)
Fixpoint fill_scan (fuel k : nat) (up : TokenStream) (buf out : queue)
  : outcome (TokenStream * queue * queue) :=
  match k with
  | O => NoFuel
  | S k' =>
    do (ok, up') <- Scan fuel up;
    if (ok : bool) then
      match Token up' with
      | Some t =>
        if tspace t || tpunct t then fill_scan fuel k' up' buf (q_push out [t])
        else Ret (up', q_push buf [t], out)
      | None => Panic
      end
    else Ret (up', buf, out)
  end.

(** filter.go:239-261: fill until enough words, punct or EOF *)
Fixpoint fill_words (fuel k maxWords wordcount : nat) (up : TokenStream) (buf : queue)
  : outcome (option error * TokenStream * queue) :=
  if Nat.ltb wordcount maxWords then
    match k with
    | O => NoFuel
    | S k' =>
      do (r, up') <- Next fuel up;
      match r with
      | (_, Some e) => Ret (Some e, up', buf)
      | (None, None) => Ret (None, up', buf)
      | (Some t, None) =>
        let buf' := q_push buf [t] in
        if tpunct t then Ret (None, up', buf')
        else if tspace t then fill_words fuel k' maxWords wordcount up' buf'
        else fill_words fuel k' maxWords (S wordcount) up' buf'
      end
    end
  else Ret (None, up, buf).

(** filter.go:198-264 fill *)
Definition fill (fuel maxWords : nat) (st : synst) : outcome (option error * synst) :=
  let '(d, out1) := lead_loop (y_buf st) (y_out st) in
  do buf1 <- q_drop (y_buf st) d;
  do (err1, up2, buf2, out2) <-
    (if Nat.eqb (q_len buf1) 0 then
       do (up', buf', out') <- fill_scan fuel fuel (y_in st) buf1 out1;
       Ret (Err up', up', buf', out')
     else Ret (None, y_in st, buf1, out1));
  match err1 with
  | Some e => Ret (Some e, mkSyn up2 buf2 out2)
  | None =>
    let wordcount := length (filter (fun t => negb (tpunct t) && negb (tspace t)) buf2) in
    do (err3, up3, buf3) <- fill_words fuel fuel maxWords wordcount up2 buf2;
    Ret (err3, mkSyn up3 buf3 out2)
  end.

Definition err_no_tokens : error := "expected buffer to have tokens"%string.
Definition err_no_word : error := "expected buffer to have word as first token"%string.
Definition err_not_empty : error := "expected buffer to be empty"%string.

(** filter.go:283-302: computes [end] *)
Fixpoint run_loop (maxWords : nat) (i words end_ : nat) (todo : list token) : nat :=
  match todo with
  | [] => end_
  | t :: rest =>
    if tpunct t then end_
    else
      let end' := S i in
      let words' := if negb (tspace t) then S words else words in
      if Nat.leb maxWords words' then end'
      else run_loop maxWords (S i) words' end' rest
  end.

(** filter.go:267-305 wordrun *)
Definition wordrun (maxWords : nat) (buf : queue) : option error * list token :=
  match buf with
  | [] => (Some err_no_tokens, [])
  | head :: _ =>
    if tspace head || tpunct head then (Some err_no_word, [])
    else (None, firstn (run_loop maxWords 0 0 0 buf) buf)
  end.

(** filter.go:151-185: the loop of next.  Result: an early error, or the state after the loop. *)
Fixpoint syn_loop (b : built) (fuel k : nat) (st : synst) : outcome (option error * synst) :=
  match k with
  | O => NoFuel
  | S k' =>
    do (err, st1) <- fill fuel (b_maxWords b) st;
    match err with
    | Some e => Ret (Some e, st1)
    | None =>
      if Nat.eqb (q_len (y_buf st1)) 0 then Ret (None, st1)
      else
        match wordrun (b_maxWords b) (y_buf st1) with
        | (Some e, _) => Ret (Some e, st1)
        | (None, run) =>
          if Nat.eqb (length run) 0 then Ret (None, st1)
          else
            match b_trie b with
            | None => Panic (* nil *RuneTrie dereferenced in SearchCanonical, trie.go:97 *)
            | Some tr =>
              let '(found, canonical, consumed) := SearchCanonical U tr run in
              if (found : bool) then
                let out' :=
                  if seqb canonical EmptyString then y_out st1
                  else match NewToken U canonical true with
                       | Some tok => q_push (y_out st1) [tok]
                       | None => y_out st1 (* not reached: canonical is non-empty *)
                       end in
                do buf' <- q_drop (y_buf st1) consumed;
                syn_loop b fuel k' (mkSyn (y_in st1) buf' out')
              else
                do (buf', out') <- q_popto (y_buf st1) (y_out st1);
                syn_loop b fuel k' (mkSyn (y_in st1) buf' out')
            end
        end
    end
  end.

(** filter.go:139-195 (tokens).next *)
Definition syn_next (b : built) (fuel : nat) (st : synst) : outcome (result * synst) :=
  if negb (Nat.eqb (q_len (y_buf st)) 0) then Ret ((None, Some err_not_empty), st)
  else if q_any (y_out st) then
    do (t, q') <- q_pop (y_out st);
    Ret ((Some t, None), mkSyn (y_in st) (y_buf st) q')
  else
    do (err, st1) <- syn_loop b fuel fuel st;
    match err with
    | Some e => Ret ((None, Some e), st1)
    | None =>
      let '(buf', out') := q_flushto (y_buf st1) (y_out st1) in
      if q_any out' then
        do (t, q') <- q_pop out';
        Ret ((Some t, None), mkSyn (y_in st1) buf' q')
      else Ret ((None, None), mkSyn (y_in st1) buf' out')
    end.

(** filter.go:118-123: the closure that reports a build error. *)
Definition syn_closure (err : option error) (b : built) (fuel : nat) (st : synst)
  : outcome (result * synst) :=
  match err with
  | Some e => Ret ((None, Some e), st)
  | None => syn_next b fuel st
  end.

(** filter.go:102-126 Filter, given the result of the once.Do (see Once.v for sync.Once): [err] is
    the local variable err, [b] the state of the filter. *)
Definition SynFilter (err : option error) (b : built) : Filter := fun s =>
  NewTokenStream (syn_closure err b) (mkSyn s (q_new []) (q_new [])).

End WithUnicode.
