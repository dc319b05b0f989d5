(** * Generators: model of /repo/filters/nba/generate/main.go and /repo/filters/stackoverflow/generate/main.go up to the map that
    is rendered as Go source. 

    Fetching is a parameter: the names found on the Wikipedia page; what the Stack Exchange API answers for a page.  Waiting
    (time.Sleep) and logging have no effect on the result. *)

From Coq Require Import ZArith DecimalString.
From Verif Require Import Base Utf8 Unicode Words Ascii ContractionsGen.

(* ------------------------------------------------------------------ *)
(** ** Standard library *)

(** [m[k] = v] for a map given by its entries *)
Definition gset (k v : string) (m : gmap) : gmap := filter (fun kv => negb (seqb (fst kv) k)) m ++ [(k, v)].

(** strings.Split(s, sep) for a separator of one byte *)
Fixpoint split_on (sep : ascii) (s : string) : list string :=
  match s with
  | EmptyString => [EmptyString]
  | String c r =>
    if Ascii.eqb c sep then EmptyString :: split_on sep r
    else match split_on sep r with
    | x :: l => String c x :: l
    | [] => [String c EmptyString]
    end
  end.

(** strings.Join(l, sep) *)
Fixpoint join (sep : string) (l : list string) : string :=
  match l with
  | [] => EmptyString
  | [x] => x
  | x :: r => (x ++ sep ++ join sep r)%string
  end.

(** strings.ReplaceAll(s, a, b) for strings of one byte *)
Fixpoint replace_byte (a b : ascii) (s : string) : string :=
  match s with
  | EmptyString => EmptyString
  | String c r => String (if Ascii.eqb c a then b else c) (replace_byte a b r)
  end.

Fixpoint drop_while {A} (p : A -> bool) (l : list A) : list A :=
  match l with
  | [] => []
  | x :: r => if p x then drop_while p r else l
  end.

(** strings.TrimSpace: [chunks] are the runes with their bytes *)
Definition TrimSpace (U : unicode) (s : string) : string :=
  let sp := fun rb : N * string => uIsSpace U (fst rb) in
  sconcat (map snd (rev (drop_while sp (rev (drop_while sp (chunks s)))))).

(* ------------------------------------------------------------------ *)
(** ** filters/nba/generate/main.go *)

Section Nba.
Variable U : unicode.
(** fmt.Errorf at line 60, with its %q and %d *)
Variable errorf : string -> nat -> error.

(** main.go:56-74, the loop *)
Fixpoint nba_loop (names : list string) (mappings : gmap) : option gmap * option error :=
  match names with
  | [] => (Some mappings, None)
  | name :: names' =>
    match split_on "," name with
    | [s0; s1] =>
      let canonical := (TrimSpace U s1 ++ " " ++ TrimSpace U s0)%string in
      let synonyms := [canonical] in
      let '(fold, folded) := FoldString canonical in
      let synonyms := if (folded : bool) then synonyms ++ [fold] else synonyms in
      nba_loop names' (gset (join ", " synonyms) canonical mappings)
    | parts => (None, Some (errorf name (length parts)))
    end
  end.

(** main.go:53-77 getMappings; [None] is the nil map *)
Definition nba_getMappings (names : list string) : option gmap * option error := nba_loop names [].
End Nba.

(* ------------------------------------------------------------------ *)
(** ** filters/stackoverflow/generate/main.go *)

(** main.go:227-231 *)
Record item := mkItem { iname : string; isynonyms : list string; moderator : bool }.

(** main.go:233-240 *)
Record wrapper := mkWrapper { items : list item; hasMore : bool; errorName : string; errorMessage : string; backoff : Z }.

(** main.go:26-31 *)
Definition ignore : list string := ["drop-down"; "datatable"; "for"; "this"]%string.

(** strings.ReplaceAll(s, "-", " ") *)
Definition spaced (s : string) : string := replace_byte "-" " " s.

(** main.go:62-72: [filtered] *)
Definition filtered (synonyms : list string) : list string :=
  map spaced (filter (fun s => negb (smem s ignore)) synonyms).

(** main.go:49-86 "Synonyms first" *)
Fixpoint synonyms_loop (its : list item) (mappings : gmap) (seen : list string) : gmap * list string :=
  match its with
  | [] => (mappings, seen)
  | tag :: its' =>
    if moderator tag then synonyms_loop its' mappings seen
    else if Nat.eqb (length (isynonyms tag)) 0 then synonyms_loop its' mappings seen
    else
      let f := filtered (isynonyms tag) in
      if Nat.eqb (length f) 0 then synonyms_loop its' mappings seen
      else synonyms_loop its' (gset (join ", " f) (iname tag) mappings) (f ++ seen)
  end.

(** main.go:88-111 *)
Fixpoint names_loop (its : list item) (mappings : gmap) (seen : list string) : gmap :=
  match its with
  | [] => mappings
  | tag :: its' =>
    if moderator tag then names_loop its' mappings seen
    else
      let synonym := spaced (iname tag) in
      if smem synonym ignore then names_loop its' mappings seen
      else if smem synonym seen then names_loop its' mappings seen
      else names_loop its' (gset synonym (iname tag) mappings) seen
  end.

Section So.
(** The API: the JSON object for a page, or the error of http, ReadAll or Unmarshal *)
Variable api : nat -> string -> wrapper + error.
(** fmt.Errorf at line 119 *)
Variable abort : Z -> error.

(** main.go:192-225 fetchTags *)
Definition fetchTags (page : nat) (site : string) : wrapper + error :=
  match api page site with
  | inr e => inr e
  | inl w =>
    if Nat.ltb 0 (String.length (errorName w)) || Nat.ltb 0 (String.length (errorMessage w))
    then inr (errorName w ++ ": " ++ errorMessage w)%string
    else inl w
  end.

(** main.go:42-132: [todo] pages are left, [page] is the next one *)
Fixpoint pages_loop (site : string) (todo page : nat) (mappings : gmap) (seen : list string) : (gmap * list string) + error :=
  match todo with
  | O => inl (mappings, seen)
  | S todo' =>
    match fetchTags page site with
    | inr e => inr e
    | inl w =>
      let '(mappings1, seen1) := synonyms_loop (items w) mappings seen in
      let mappings2 := names_loop (items w) mappings1 seen1 in
      if negb (hasMore w) then inl (mappings2, seen1)
      else if (10 <? backoff w)%Z then inr (abort (backoff w))
      else pages_loop site todo' (S page) mappings2 seen1
    end
  end.

(** main.go:41-133, the loop over [sites] *)
Fixpoint sites_loop (sites : list (string * nat)) (mappings : gmap) (seen : list string) : (gmap * list string) + error :=
  match sites with
  | [] => inl (mappings, seen)
  | (site, count) :: sites' =>
    match pages_loop site (count / 100) 1 mappings seen with
    | inr e => inr e
    | inl (mappings', seen') => sites_loop sites' mappings' seen'
    end
  end.

(** main.go:178-183 *)
Definition sites : list (string * nat) := [("stackoverflow"%string, 2000)].

(** main.go:34-133 writeDictionary, up to the map *)
Definition so_mappings_of : gmap + error :=
  match sites_loop sites [] [] with
  | inl (m, _) => inl m
  | inr e => inr e
  end.
End So.
