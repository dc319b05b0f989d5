(** * Aliasing: the arguments of NewFilter that the caller can change afterwards.

    /repo/filters/stopwords/filter.go:11-30 (a slice of words), /repo/filters/synonyms/filter.go:31-41 (a map and a slice of
    runes), /repo/filters/mapper/filter.go:13-19 (a slice of functions; [funcs] is the caller's slice when called with
    [NewFilter(fs...)]).  In the other files these arguments are values; here they are variables of the caller, and calls of
    the filter read them when the Go code does.  A map is the list of its entries in the order of iteration. *)

From Verif Require Import Base Utf8 Unicode Token Stream Queue Tokenizer Filters Trie Synonyms.

(** What the arguments refer to. *)
Record mem := mkMem {
  m_words : list string;                  (* stopwords: the elements of the slice *)
  m_mappings : list (string * string);    (* synonyms: the map *)
  m_runes : list N;                       (* synonyms: the elements of ignoreRunes *)
  m_funcs : list mapfunc                  (* mapper: the elements of the slice *)
}.

(** A kind of filter: [obj] the filter behind the pointer f, [loc] the variables of one of its streams;
    [make]: NewFilter; [apply]: f.Filter(incoming); [next]: the closure of a stream. *)
Record maker := mkMaker {
  obj : Type;
  loc : Type;
  make : mem -> obj;
  apply : nat -> mem -> obj -> TokenStream -> outcome (obj * loc);
  next : nat -> mem -> obj -> loc -> outcome (result * loc)
}.

Section Makers.
Variable U : unicode.
Variable scan : oracle.
Variable ignoreCase : bool.

(** stopwords/filter.go:11-30: the words are put into a map; 37-71 *)
Definition stopwords_maker : maker :=
  mkMaker (list string) TokenStream
    (fun m => stop_includes U (m_words m) ignoreCase)
    (fun _ _ includes s => Ret (includes, s))
    (fun fuel _ includes s => stop_loop U includes ignoreCase fuel fuel s).

(** mapper/filter.go:13-19: the slice is kept; 22-29, 37-51: it is read for every token *)
Definition mapper_maker : maker :=
  mkMaker unit TokenStream
    (fun _ => tt)
    (fun _ _ f s => Ret (f, s))
    (fun fuel m _ s => mapper_next (m_funcs m) fuel s).

(** synonyms/filter.go:15-22: [None] until once.Do has run, then what build left (43-87) *)
Definition synonyms_maker : maker :=
  mkMaker (option built) (option error * synst)
    (fun _ => None)
    (fun fuel m f s =>
       let st := mkSyn s (q_new []) (q_new []) in
       match f with
       | Some b => Ret (Some b, (None, st))
       | None => do (err, b) <- build U scan fuel (mkConfig (m_mappings m) ignoreCase (m_runes m)); Ret (Some b, (err, st))
       end)
    (fun fuel _ f x =>
       let '(err, st) := x in
       match f with
       | None => Panic (* not reached: a stream is made by apply *)
       | Some b => do (r, st') <- syn_closure U err b fuel st; Ret (r, (err, st'))
       end).
End Makers.

(** What a program does with a filter: it changes its variables, applies the filter, or calls Next on the stream of
    the i-th application (with i too large: on a nil stream). *)
Inductive op := Change (m : mem) | Apply (s : TokenStream) | Call (i : nat).

Fixpoint set_nth {B} (n : nat) (x : B) (l : list B) : list B :=
  match l, n with
  | [], _ => []
  | _ :: l', O => x :: l'
  | y :: l', S n' => y :: set_nth n' x l'
  end.

(** The results of the calls of Next, in order. *)
Fixpoint run (K : maker) (fuel : nat) (m : mem) (f : obj K) (streams : list (loc K)) (ops : list op) : outcome (list result) :=
  match ops with
  | [] => Ret []
  | Change m' :: ops' => run K fuel m' f streams ops'
  | Apply s :: ops' => do (f', x) <- apply K fuel m f s; run K fuel m f' (streams ++ [x]) ops'
  | Call i :: ops' =>
    match nth_error streams i with
    | None => Panic
    | Some x =>
      do (r, x') <- next K fuel m f x;
      do rs <- run K fuel m f (set_nth i x' streams) ops';
      Ret (r :: rs)
    end
  end.

(** NewFilter with the arguments [m], then [ops]. *)
Definition session (K : maker) (fuel : nat) (m : mem) (ops : list op) : outcome (list result) := run K fuel m (make K m) [] ops.
