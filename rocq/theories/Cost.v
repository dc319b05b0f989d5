(** * Cost: the filters with a count of the elements moved by queue operations.

    The definitions repeat those of Synonyms.v and Filters.v; each result also carries the number of queue elements
    copied by Drop and Pop (tokenqueue/queue.go:50; the count is the one of SliceQueue.Drop).  Appends are not counted. *)

From Verif Require Import Base Unicode Token Stream Queue Tokenizer Filters Trie Synonyms.

(** queue.go:47-53, see SliceQueue.Drop *)
Definition moved (q : queue) (n : nat) : nat := length q - n.

Section Synonyms.
Variable U : unicode.

(** filters/synonyms/filter.go:198-264 fill: drops the leading tokens of the buffer, line 210 *)
Definition fill_c (fuel maxWords : nat) (st : synst) : outcome (option error * synst * nat) :=
  do (err, st') <- fill fuel maxWords st;
  Ret (err, st', moved (y_buf st) (fst (lead_loop (y_buf st) (y_out st)))).

(** filters/synonyms/filter.go:151-185 *)
Fixpoint syn_loop_c (b : built) (fuel k : nat) (st : synst) (n : nat) : outcome (option error * synst * nat) :=
  match k with
  | O => NoFuel
  | S k' =>
    do (err, st1, n1) <- fill_c fuel (b_maxWords b) st;
    match err with
    | Some e => Ret (Some e, st1, n + n1)
    | None =>
      if Nat.eqb (q_len (y_buf st1)) 0 then Ret (None, st1, n + n1)
      else
        match wordrun (b_maxWords b) (y_buf st1) with
        | (Some e, _) => Ret (Some e, st1, n + n1)
        | (None, run) =>
          if Nat.eqb (length run) 0 then Ret (None, st1, n + n1)
          else
            match b_trie b with
            | None => Panic
            | Some tr =>
              let '(found, canonical, consumed) := SearchCanonical U tr run in
              if (found : bool) then
                let out' :=
                  if seqb canonical EmptyString then y_out st1
                  else match NewToken U canonical true with
                       | Some tok => q_push (y_out st1) [tok]
                       | None => y_out st1
                       end in
                do buf' <- q_drop (y_buf st1) consumed;
                syn_loop_c b fuel k' (mkSyn (y_in st1) buf' out') (n + n1 + moved (y_buf st1) consumed)
              else
                do (buf', out') <- q_popto (y_buf st1) (y_out st1);
                syn_loop_c b fuel k' (mkSyn (y_in st1) buf' out') (n + n1 + moved (y_buf st1) 1)
            end
        end
    end
  end.

(** filters/synonyms/filter.go:139-195 *)
Definition syn_next_c (b : built) (fuel : nat) (st : synst) : outcome (result * synst * nat) :=
  if negb (Nat.eqb (q_len (y_buf st)) 0) then Ret ((None, Some err_not_empty), st, 0)
  else if q_any (y_out st) then
    do (t, q') <- q_pop (y_out st);
    Ret ((Some t, None), mkSyn (y_in st) (y_buf st) q', moved (y_out st) 1)
  else
    do (err, st1, n) <- syn_loop_c b fuel fuel st 0;
    match err with
    | Some e => Ret ((None, Some e), st1, n)
    | None =>
      let '(buf', out') := q_flushto (y_buf st1) (y_out st1) in
      if q_any out' then
        do (t, q') <- q_pop out';
        Ret ((Some t, None), mkSyn (y_in st1) buf' q', n + moved out' 1)
      else Ret ((None, None), mkSyn (y_in st1) buf' out', n)
    end.
End Synonyms.

Section Contractions.
Variable U : unicode.
Variable scan : oracle.
Variable mappings : list (string * string).

(** contractions/filter.go:30-61 *)
Definition contractions_next_c (fuel : nat) (st : cstate) : outcome (result * cstate * nat) :=
  if q_any (c_out st) then
    do (t, q') <- q_pop (c_out st);
    Ret ((Some t, None), mkCS (c_in st) q', moved (c_out st) 1)
  else
    do (r, up') <- Next fuel (c_in st);
    match r with
    | (_, Some e) => Ret ((None, Some e), mkCS up' (c_out st), 0)
    | (None, None) => Ret ((None, None), mkCS up' (c_out st), 0)
    | (Some t, None) =>
      do (found, err, out1) <- tryExpansion U scan mappings fuel (c_out st) t false;
      match err with
      | Some e => Ret ((None, Some e), mkCS up' out1, 0)
      | None =>
        do (err2, out2) <-
          (if (found : bool) then Ret (None, out1)
           else
             do (_, err2, out2) <- tryExpansion U scan mappings fuel out1 t true;
             Ret (err2, out2));
        match err2 with
        | Some e => Ret ((None, Some e), mkCS up' out2, 0)
        | None =>
          if q_any out2 then
            do (t', q') <- q_pop out2;
            Ret ((Some t', None), mkCS up' q', moved out2 1)
          else Ret ((Some t, None), mkCS up' out2, 0)
        end
      end
    end.
End Contractions.

Section Sigil.
Variable U : unicode.
Variable sigil : string.
Variable legal : string -> bool.

(** sigil/filter.go:41-77 *)
Definition sigil_next_c (fuel : nat) (st : sstate) : outcome (result * sstate * nat) :=
  if q_any (s_out st) then
    do (t, q') <- q_pop (s_out st);
    Ret ((Some t, None), mkSS (s_in st) (s_prev st) q', moved (s_out st) 1)
  else
    do (r, st') <- sigil_next U sigil legal fuel st;
    Ret (r, st', 0).
End Sigil.
