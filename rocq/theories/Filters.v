(** * Filters: model of the simple filters
    /repo/filters/{stopwords,mapper,ascii,stemmer,norm,contractions,sigil,twitter}/filter.go *)

From Verif Require Import Base Utf8 Unicode Token Stream Queue Tokenizer.

(* ------------------------------------------------------------------ *)
(** ** stopwords *)

Section Stopwords.
Variable U : unicode.

(** stopwords/filter.go:12-21: the map [includes], as the list of its keys. *)
Definition stop_includes (words : list string) (ignoreCase : bool) : list string :=
  map (fun s => if ignoreCase then strings_ToLower U s else s) words.

(** stopwords/filter.go:49-71 (tokens).next *)
Fixpoint stop_loop (includes : list string) (ignoreCase : bool) (fuel k : nat)
    (up : TokenStream) : outcome (result * TokenStream) :=
  match k with
  | O => NoFuel
  | S k' =>
    do (r, up') <- Next fuel up;
    match r with
    | (_, Some e) => Ret ((None, Some e), up')
    | (None, None) => Ret ((None, None), up')
    | (Some t, None) =>
      let key := if ignoreCase then strings_ToLower U (tvalue t) else tvalue t in
      if smem key includes then stop_loop includes ignoreCase fuel k' up'
      else Ret ((Some t, None), up')
    end
  end.

(** stopwords/filter.go:11-42 NewFilter, Filter *)
Definition Stopwords (words : list string) (ignoreCase : bool) : Filter := fun s =>
  NewTokenStream
    (fun fuel up => stop_loop (stop_includes words ignoreCase) ignoreCase fuel fuel up) s.
End Stopwords.

(* ------------------------------------------------------------------ *)
(** ** mapper *)

(** A [func( *jargon.Token) *jargon.Token].  Applied to nil it dereferences the pointer (as every
    function of the library does) and panics. *)
Definition mapfunc := token -> option token.

(** mapper/filter.go:46-48: [for _, f := range funcs { token = f(token) }] *)
Fixpoint apply_funcs (fs : list mapfunc) (t : option token) : outcome (option token) :=
  match fs with
  | [] => Ret t
  | f :: fs' =>
    match t with
    | None => Panic
    | Some t' => apply_funcs fs' (f t')
    end
  end.

(** mapper/filter.go:37-51 (tokens).next *)
Definition mapper_next (fs : list mapfunc) (fuel : nat) (up : TokenStream)
  : outcome (result * TokenStream) :=
  do (r, up') <- Next fuel up;
  match r with
  | (_, Some e) => Ret ((None, Some e), up')
  | (None, None) => Ret ((None, None), up')
  | (Some t, None) =>
    do t' <- apply_funcs fs (Some t);
    Ret ((t', None), up')
  end.

(** mapper/filter.go:13-29 NewFilter, Filter *)
Definition Mapper (fs : list mapfunc) : Filter := fun s => NewTokenStream (mapper_next fs) s.

(* ------------------------------------------------------------------ *)
(** ** stemmer *)

Section Stemmer.
Variable U : unicode.
(** [stem(word, stemStopWords)] of package snowball. *)
Variable stem : string -> bool -> string.

(** stemmer/filter.go:35-49 *)
Definition stem_token : mapfunc := fun t =>
  if tpunct t || tspace t then Some t
  else
    let stemmed := stem (tvalue t) true in
    if seqb stemmed (tvalue t) then Some t else NewToken U stemmed true.

(** stemmer/filter.go:34-52 newStemmer *)
Definition Stemmer : Filter := Mapper [stem_token].
End Stemmer.

(* ------------------------------------------------------------------ *)
(** ** norm *)

Section Norm.
Variable U : unicode.
(** [form.IsNormalString], [form.String] of golang.org/x/text/unicode/norm. *)
Variable isNormal : string -> bool.
Variable normalize : string -> string.

(** norm/filter.go:22-29 *)
Definition norm_token : mapfunc := fun t =>
  if isNormal (tvalue t) then Some t else NewToken U (normalize (tvalue t)) true.

(** norm/filter.go:21-32 newFilter *)
Definition Norm : Filter := Mapper [norm_token].
End Norm.

(* ------------------------------------------------------------------ *)
(** ** contractions *)

Section Contractions.
Variable U : unicode.
Variable scan : oracle.
(** contractions/generated.go [mappings] *)
Variable mappings : list (string * string).

(** contractions/filter.go:25-28 [tokens] *)
Record cstate := mkCS { c_in : TokenStream; c_out : queue }.

(** contractions/filter.go:63-80 tryExpansion.  Returns found, the error and the queue. *)
Definition tryExpansion (fuel : nat) (out : queue) (t : token) (ignoreCase : bool)
  : outcome (bool * option error * queue) :=
  let key := if ignoreCase then strings_ToLower U (tvalue t) else tvalue t in
  match assoc key mappings with
  | Some expansion =>
    do (res, _) <- ToSlice fuel (TokenizeString U scan expansion);
    match res with
    | (_, Some e) => Ret (true, Some e, out)
    | (toks, None) => Ret (true, None, q_push out toks)
    end
  | None => Ret (false, None, out)
  end.

(** contractions/filter.go:30-61 (tokens).next *)
Definition contractions_next (fuel : nat) (st : cstate) : outcome (result * cstate) :=
  if q_any (c_out st) then
    do (t, q') <- q_pop (c_out st);
    Ret ((Some t, None), mkCS (c_in st) q')
  else
    do (r, up') <- Next fuel (c_in st);
    match r with
    | (_, Some e) => Ret ((None, Some e), mkCS up' (c_out st))
    | (None, None) => Ret ((None, None), mkCS up' (c_out st))
    | (Some t, None) =>
      do (found, err, out1) <- tryExpansion fuel (c_out st) t false;
      match err with
      | Some e => Ret ((None, Some e), mkCS up' out1)
      | None =>
        do (err2, out2) <-
          (if (found : bool) then Ret (None, out1)
           else
             do (_, err2, out2) <- tryExpansion fuel out1 t true;
             Ret (err2, out2));
        match err2 with
        | Some e => Ret ((None, Some e), mkCS up' out2)
        | None =>
          if q_any out2 then
            do (t', q') <- q_pop out2;
            Ret ((Some t', None), mkCS up' q')
          else Ret ((Some t, None), mkCS up' out2)
        end
      end
    end.

(** contractions/filter.go:17-23 Expand *)
Definition Contractions : Filter := fun s =>
  NewTokenStream contractions_next (mkCS s (q_new [])).
End Contractions.

(* ------------------------------------------------------------------ *)
(** ** sigil *)

Section Sigil.
Variable U : unicode.
Variable sigil : string.
Variable legal : string -> bool.

(** sigil/filter.go:33-39 [stream] *)
Record sstate := mkSS { s_in : TokenStream; s_prev : option token; s_out : queue }.

(** Result of [try]: success, handle, error. *)
Definition tryres := (bool * option token * option error)%type.

(** sigil/filter.go:79-104 try *)
Definition sigil_try (fuel : nat) (st : sstate) (current : token)
  : outcome (tryres * sstate) :=
  if negb (seqb (tvalue current) sigil) then Ret ((false, None, None), st)
  else
    do (r, up') <- Next fuel (s_in st);
    let st' := mkSS up' (s_prev st) (s_out st) in
    match r with
    | (_, Some e) => Ret ((false, None, Some e), st')
    | (None, None) => Ret ((false, None, None), st')
    | (Some look, None) =>
      if legal (tvalue look) then
        Ret ((true, NewToken U (sigil ++ tvalue look)%string true, None), st')
      else
        Ret ((false, None, None), mkSS up' (s_prev st) (q_push (s_out st) [look]))
    end.

Definition err_outgoing : error := "there should be nothing in outgoing"%string.

(** sigil/filter.go:41-77 (stream).next *)
Definition sigil_next (fuel : nat) (st : sstate) : outcome (result * sstate) :=
  if q_any (s_out st) then
    do (t, q') <- q_pop (s_out st);
    Ret ((Some t, None), mkSS (s_in st) (s_prev st) q')
  else
    do (r, up') <- Next fuel (s_in st);
    let st1 := mkSS up' (s_prev st) (s_out st) in
    match r with
    | (_, Some e) => Ret ((None, Some e), st1)
    | (None, None) => Ret ((None, None), st1)
    | (Some current, None) =>
      let boundaryOK :=
        match s_prev st1 with
        | None => true
        | Some p => tspace p || tpunct p
        end in
      if negb boundaryOK then
        Ret ((Some current, None), mkSS (s_in st1) (Some current) (s_out st1))
      else
        do (tr, st2) <- sigil_try fuel st1 current;
        match tr with
        | (_, _, Some e) => Ret ((None, Some e), st2)
        | (true, handle, None) =>
          if q_any (s_out st2) then Ret ((None, Some err_outgoing), st2)
          else Ret ((handle, None), mkSS (s_in st2) handle (s_out st2))
        | (false, _, None) =>
          Ret ((Some current, None), mkSS (s_in st2) (Some current) (s_out st2))
        end
    end.

(** sigil/filter.go:11-31 NewFilter, filter *)
Definition Sigil : Filter := fun s => NewTokenStream sigil_next (mkSS s None (q_new [])).
End Sigil.

(* ------------------------------------------------------------------ *)
(** ** twitter *)

Local Open Scope N_scope.

(** twitter/filter.go:27-30 *)
Definition handle_char (r : N) : bool :=
  (in_range 65 90 r) || (in_range 97 122 r) || (in_range 48 57 r) || (r =? 95).

(** twitter/filter.go:19-37: the loop; [len] is the counter [length] before the iteration. *)
Fixpoint handle_loop (len : nat) (rs : list N) : bool :=
  match rs with
  | [] => true
  | r :: rs' =>
    let len' := S len in
    if Nat.ltb 15 len' then false
    else if handle_char r then handle_loop len' rs'
    else false
  end.

(** twitter/filter.go:18-38 legalHandle *)
Definition legalHandle (s : string) : bool := handle_loop 0 (runes s).

(** twitter/filter.go:49-59 *)
Fixpoint hashtag_loop (U : unicode) (rs : list N) : bool :=
  match rs with
  | [] => true
  | r :: rs' =>
    if uIsLetter U r || uIsNumber U r || (r =? 95) then hashtag_loop U rs' else false
  end.

(** twitter/filter.go:41-62 legalHashtag.  [utf8.DecodeRuneInString(s)] is the first rune. *)
Definition legalHashtag (U : unicode) (s : string) : bool :=
  let length := List.length (runes s) in
  if Nat.eqb length 1 then uIsLetter U (hd RuneError (runes s))
  else hashtag_loop U (runes s).

(** twitter/filter.go:12,15 *)
Definition Handles (U : unicode) : Filter := Sigil U "@"%string legalHandle.
Definition Hashtags (U : unicode) : Filter := Sigil U "#"%string (legalHashtag U).
