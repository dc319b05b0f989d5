(** * Stream: model of /repo/tokenstream.go

    A Go [*TokenStream] is an object with a closure [next] and the fields [token], [err].
    It is modelled as a coinductive object: calling [Next] yields a result and the object
    in its new state.  Simplification: an upstream stream is owned by the filter that
    wraps it (nobody else calls Next on it meanwhile); the state of the upstream is
    threaded through the downstream object. *)

From Verif Require Import Base Utf8 Unicode Token.

(** What [Next() ( *Token, error)] returns. *)
Definition result : Type := (option token * option error)%type.

(** tokenstream.go:12-17.  [ts_next s fuel]: one call of the closure; [fuel] bounds every
    [for] loop executed during the call. *)
CoInductive TokenStream : Type := TS {
  ts_token : option token;
  ts_err : option error;
  ts_next : nat -> outcome (result * TokenStream)
}.

(** tokenstream.go:9 [type Filter func( *TokenStream) *TokenStream]. *)
Definition Filter := TokenStream -> TokenStream.

(** tokenstream.go:20-22 Next (the shim of NewTokenStream, lines 29-32, is [closure]). *)
Definition Next (fuel : nat) (s : TokenStream) : outcome (result * TokenStream) :=
  ts_next s fuel.

(** tokenstream.go:25-36 NewTokenStream: the wrapper stores what the closure returned in the
    fields and returns it.  [step] is the closure, [x] the variables it has captured. *)
CoFixpoint closure {X : Type} (step : nat -> X -> outcome (result * X))
    (tok : option token) (err : option error) (x : X) : TokenStream :=
  TS tok err (fun fuel =>
    match step fuel x with
    | Ret (r, x') => Ret (r, closure step (fst r) (snd r) x')
    | Panic => Panic
    | NoFuel => NoFuel
    end).

Definition NewTokenStream {X : Type} (step : nat -> X -> outcome (result * X)) (x : X)
  : TokenStream := closure step None None x.

(** tokenstream.go:53-60 Token, Err. *)
Definition Token (s : TokenStream) : option token := ts_token s.
Definition Err (s : TokenStream) : option error := ts_err s.

(** tokenstream.go:47-50 Scan: [stream.token, stream.err = stream.Next()]. *)
Definition set_fields (r : result) (s : TokenStream) : TokenStream :=
  TS (fst r) (snd r) (ts_next s).

Definition Scan (fuel : nat) (s : TokenStream) : outcome (bool * TokenStream) :=
  do (r, s') <- Next fuel s;
  let s'' := set_fields r s' in
  Ret ((match ts_token s'' with Some _ => true | None => false end) &&
       (match ts_err s'' with None => true | Some _ => false end), s'').

(** tokenstream.go:76-92 (where).next.  The predicate may carry state ([P]), as the one of
    Distinct does. *)
Fixpoint where_loop {P} (pred : P -> token -> bool * P) (fuel k : nat)
    (x : P * TokenStream) : outcome (result * (P * TokenStream)) :=
  match k with
  | O => NoFuel
  | S k' =>
    let '(p, up) := x in
    do (r, up') <- Next fuel up;
    match r with
    | (_, Some e) => Ret ((None, Some e), (p, up'))
    | (None, None) => Ret ((None, None), (p, up'))
    | (Some t, None) =>
      let '(b, p') := pred p t in
      if b then Ret ((Some t, None), (p', up'))
      else where_loop pred fuel k' (p', up')
    end
  end.

Definition where_next {P} (pred : P -> token -> bool * P) (fuel : nat) (x : P * TokenStream)
  := where_loop pred fuel fuel x.

Definition stateless (pred : token -> bool) : unit -> token -> bool * unit :=
  fun u t => (pred t, u).

(** tokenstream.go:68-74 Where. *)
Definition Where (pred : token -> bool) : Filter := fun s =>
  NewTokenStream (where_next (stateless pred)) (tt, s).

(** tokenstream.go:154-163 Words. *)
Definition is_word (t : token) : bool := negb (tpunct t) && negb (tspace t).
Definition Words : Filter := Where is_word.

(** tokenstream.go:166-172 Lemmas. *)
Definition Lemmas : Filter := Where tlemma.

(** tokenstream.go:175-190 Distinct; [seen] is the list of strings put in the map so far. *)
Definition distinct_pred (seen : list string) (t : token) : bool * list string :=
  let found := smem (tvalue t) seen in
  (negb found, if found then seen else tvalue t :: seen).

Definition Distinct : Filter := fun s =>
  NewTokenStream (where_next distinct_pred) ([], s).

(** tokenstream.go:110-116 Filter. *)
Definition ApplyFilters (filters : list Filter) (s : TokenStream) : TokenStream :=
  fold_left (fun outgoing f => f outgoing) filters s.

(** tokenstream.go:98-100,121-124,195-197: the loop [for stream.Scan() { ... }] with a
    body that updates an accumulator from the current token. *)
Fixpoint scan_loop {A} (body : A -> token -> A) (fuel k : nat) (acc : A) (s : TokenStream)
  : outcome (A * TokenStream) :=
  match k with
  | O => NoFuel
  | S k' =>
    do (ok, s') <- Scan fuel s;
    if (ok : bool) then
      match Token s' with
      | Some t => scan_loop body fuel k' (body acc t) s'
      | None => Panic
      end
    else Ret (acc, s')
  end.

(** tokenstream.go:95-107 ToSlice. *)
Definition ToSlice (fuel : nat) (s : TokenStream)
  : outcome ((list token * option error) * TokenStream) :=
  do (acc, s') <- scan_loop (fun l t => l ++ [t]) fuel fuel [] s;
  match Err s' with
  | Some e => Ret (([], Some e), s')
  | None => Ret ((acc, None), s')
  end.

(** tokenstream.go:118-131 String. *)
Definition StreamString (fuel : nat) (s : TokenStream)
  : outcome ((string * option error) * TokenStream) :=
  do (acc, s') <- scan_loop (fun b t => (b ++ tvalue t)%string) fuel fuel EmptyString s;
  match Err s' with
  | Some e => Ret ((EmptyString, Some e), s')
  | None => Ret ((acc, None), s')
  end.

(** tokenstream.go:193-204 Count.  [int] modelled as [nat] (no overflow). *)
Definition Count (fuel : nat) (s : TokenStream)
  : outcome ((nat * option error) * TokenStream) :=
  do (n, s') <- scan_loop (fun n _ => S n) fuel fuel O s;
  Ret ((n, Err s'), s').

(** An [io.Writer]: state and [Write(p) (n int, err error)]. *)
Record writer := mkWriter {
  wstate : Type;
  wwrite : wstate -> string -> (nat * option error) * wstate
}.

(** tokenstream.go:134-151 WriteTo.  [int64] modelled as [nat] (no overflow). *)
Fixpoint writeto_loop (w : writer) (fuel k : nat) (written : nat) (ws : wstate w)
    (s : TokenStream) : outcome ((nat * option error) * (wstate w * TokenStream)) :=
  match k with
  | O => NoFuel
  | S k' =>
    do (ok, s') <- Scan fuel s;
    if (ok : bool) then
      match Token s' with
      | Some t =>
        let '((n, err), ws') := wwrite w ws (tvalue t) in
        match err with
        | Some e => Ret ((written + n, Some e), (ws', s'))
        | None => writeto_loop w fuel k' (written + n) ws' s'
        end
      | None => Panic
      end
    else
      Ret ((written, Err s'), (ws, s'))
  end.

Definition WriteTo (w : writer) (fuel : nat) (ws : wstate w) (s : TokenStream)
  := writeto_loop w fuel fuel 0 ws s.
