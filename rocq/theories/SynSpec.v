(** * SynSpec: vocabulary of the statements about the trie and the synonyms filter.

    Written from the documentation; uses neither the trie nor any helper of the filter. *)

From Verif Require Import Base Utf8 Unicode Token Stream StreamSpec FilterSpec.

(** Entries of a dictionary in the order in which they were added: a synonym and its canonical. *)
Definition dictionary := list (list token * string).

Section WithUnicode.
Variable U : unicode.
Variable ignoreCase : bool.
Variable ignored : list N.

(** The normalized spelling of a string: in lower case if [ignoreCase], without the ignored runes. *)
Definition letters (v : string) : list N :=
  filter (fun r => negb (existsb (N.eqb r) ignored))
    (map (fun r => if ignoreCase then uToLower U r else r) (runes v)).

Definition spelled (l : list token) : list N := flat_map (fun t => letters (tvalue t)) l.

(** The dictionary maps the spelling [p] to [c]: the last synonym spelled so has canonical [c]. *)
Definition means (D : dictionary) (p : list N) (c : string) : Prop :=
  exists a l b, D = a ++ (l, c) :: b /\ spelled l = p /\ forall l' c', In (l', c') b -> spelled l' <> p.

(** The first [k] tokens of [l] (at least one) spell a synonym with canonical [c]. *)
Definition matches (D : dictionary) (l : list token) (k : nat) (c : string) : Prop :=
  1 <= k <= length l /\ means D (spelled (firstn k l)) c.

(** Among the matching prefixes this one spells the longest synonym, with as few tokens as possible. *)
Definition longest (D : dictionary) (l : list token) (k : nat) (c : string) : Prop :=
  matches D l k c /\
  forall k' c', matches D l k' c' -> k' <> k ->
    length (spelled (firstn k' l)) < length (spelled (firstn k l)) \/
    (spelled (firstn k' l) = spelled (firstn k l) /\ k < k').

(** The answer of a search: found, canonical, number of tokens. *)
Definition finds (D : dictionary) (l : list token) (r : bool * string * nat) : Prop :=
  match r with
  | (true, c, k) => longest D l k c
  | (false, c, k) => c = EmptyString /\ k = 0 /\ forall k' c', ~ matches D l k' c'
  end.

(** The tokens from the front of [l] up to punctuation, or up to and including the [n]th word. *)
Fixpoint window (n : nat) (l : list token) : list token :=
  match n, l with
  | S m, t :: r =>
    if tpunct t then []
    else if tspace t then t :: window n r
    else t :: window m r
  | _, _ => []
  end.

(** What replaces a synonym: a lemma, or nothing if the canonical is empty. *)
Definition canonical_token (c : string) (g : list token) : Prop :=
  (c = EmptyString /\ g = []) \/ (exists t, lemma_of U c t /\ g = [t]).

(** Left-to-right replacement of synonyms; [n] is the largest number of words considered. *)
Inductive rewrites (D : dictionary) (n : nat) : list token -> list token -> Prop :=
| RW_nil : rewrites D n [] []
| RW_pass t l o : ~ word t -> rewrites D n l o -> rewrites D n (t :: l) (t :: o)
| RW_keep t l o : word t -> (forall k c, ~ matches D (window n (t :: l)) k c) ->
    rewrites D n l o -> rewrites D n (t :: l) (t :: o)
| RW_replace t l k c g o : word t -> longest D (window n (t :: l)) k c -> canonical_token c g ->
    rewrites D n (skipn k (t :: l)) o -> rewrites D n (t :: l) (g ++ o).

End WithUnicode.

(** ** Building the dictionary *)

(** The pieces of [l] between separators. *)
Inductive separated {A} (sep : A -> Prop) : list A -> list (list A) -> Prop :=
| Sep_last l : (forall x, In x l -> ~ sep x) -> separated sep l [l]
| Sep_more a s l r : (forall x, In x a -> ~ sep x) -> sep s -> separated sep l r ->
    separated sep (a ++ s :: l) (a :: r).

(** [l'] is [l] without its leading spaces. *)
Definition trimmed (l l' : list token) : Prop :=
  exists sp, l = sp ++ l' /\ (forall t, In t sp -> tspace t = true) /\
    (forall t r, l' = t :: r -> tspace t = false).

Definition is_comma (t : token) : Prop := tvalue t = ","%string.

(** The dictionary entries made from one mapping whose key is tokenized as [l]. *)
Definition entries_of (l : list token) (c : string) (D : dictionary) : Prop :=
  exists pieces syns, separated is_comma l pieces /\ Forall2 trimmed pieces syns /\ D = map (fun l' => (l', c)) syns.

(** [D] is the dictionary of the mappings [ms], taken in that order; [toks k] are the tokens of key [k]. *)
Inductive dictionary_of (toks : string -> list token -> Prop) : list (string * string) -> dictionary -> Prop :=
| Dict_nil : dictionary_of toks [] []
| Dict_cons k c ms l D1 D2 : toks k l -> entries_of l c D1 -> dictionary_of toks ms D2 ->
    dictionary_of toks ((k, c) :: ms) (D1 ++ D2).

(** The number of words. *)
Definition words_in (l : list token) : nat :=
  length (filter (fun t => negb (tpunct t || tspace t)) l).

(** [n] is the largest number of words in a synonym, but at least one. *)
Definition widest (D : dictionary) (n : nat) : Prop :=
  1 <= n /\ (forall l c, In (l, c) D -> words_in l <= n) /\
  (n = 1 \/ exists l c, In (l, c) D /\ words_in l = n).

(** A group of tokens of the input and what stands for it in the output: one token kept, or a run that
    starts with a word, has no punctuation and at most [n] words, replaced by a lemma or dropped. *)
Definition group_ok (U : unicode) (n : nat) (gh : list token * list token) : Prop :=
  (exists t, gh = ([t], [t])) \/
  (exists t r, fst gh = t :: r /\ word t /\ (forall x, In x (fst gh) -> tpunct x = false) /\ words_in (fst gh) <= n /\
     (snd gh = [] \/ exists c m, lemma_of U c m /\ snd gh = [m])).

(** Two streams that no caller can tell apart. *)
CoInductive Same (s1 s2 : TokenStream) : Prop :=
| Same_intro :
    ts_token s1 = ts_token s2 -> ts_err s1 = ts_err s2 ->
    (forall fuel,
      (exists r s1' s2', Next fuel s1 = Ret (r, s1') /\ Next fuel s2 = Ret (r, s2') /\ Same s1' s2') \/
      (Next fuel s1 = Panic /\ Next fuel s2 = Panic) \/
      (Next fuel s1 = NoFuel /\ Next fuel s2 = NoFuel)) ->
    Same s1 s2.
