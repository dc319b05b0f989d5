(** * Token: model of /repo/token.go and /repo/punct.go *)

From Verif Require Import Base Utf8 Unicode.
Local Open Scope N_scope.

(** token.go:8-11 [type Token struct].  A [*Token] is an [option token]; tokens are
    immutable (fields unexported, no setter), so pointer identity is not modelled. *)
Record token := mkToken {
  tvalue : string;   (* String(), token.go:14-16 *)
  tpunct : bool;     (* IsPunct(), token.go:20-22 *)
  tspace : bool;     (* IsSpace(), token.go:27-29 *)
  tlemma : bool      (* IsLemma(), token.go:32-34 *)
}.

Section WithUnicode.
Variable U : unicode.

(** punct.go:9-18 *)
Definition spaceIsPunct (r : N) : bool := (r =? 10) || (r =? 13) || (r =? 9).

(** punct.go:5-7 *)
Definition isPunct (r : N) : bool := uIsPunct U r || spaceIsPunct r.

(** token.go:56-61 and 64-69: a loop that sets a flag to false and breaks at the first
    rune failing the test. *)
Fixpoint all_runes (p : N -> bool) (rs : list N) : bool :=
  match rs with
  | [] => true
  | r :: rs' => if negb (p r) then false else all_runes p rs'
  end.

(** token.go:44-77, the part of NewToken after the cache look-up. *)
Definition crlf : string := String (chr 13) (String (chr 10) EmptyString).

Definition new_token_uncached (s : string) (isLemma : bool) : option token :=
  if Nat.eqb (String.length s) 0 then None
  else
    let '(punct, space) :=
      if seqb s crlf then (true, true)
      else (all_runes isPunct (runes s), all_runes (uIsSpace U) (runes s)) in
    Some (mkToken s punct space isLemma).

(** token.go:83-102, the list of cached strings. *)
Definition common_strings : list string :=
  [" "; String (chr 13) EmptyString; String (chr 10) EmptyString; String (chr 9) EmptyString;
   "."; ",";
   "A"; "a"; "An"; "an"; "The"; "the"; "And"; "and"; "Or"; "or"; "Not"; "not";
   "Of"; "of"; "In"; "in"; "On"; "on"; "To"; "to"; "Be"; "be"; "Is"; "is";
   "Are"; "are"; "Has"; "has"; "Have"; "have"; "It"; "it"; "Do"; "do"]%string.

(** token.go:80,104-109: the map [common] filled by init().  While init runs, the look-up in
    NewToken misses for the key being added (each key occurs once), so the entries are
    those of the uncached path. *)
Definition common : list (string * (option token * option token)) :=
  map (fun s => (s, (new_token_uncached s true, new_token_uncached s false))) common_strings.

(** token.go:37-78 NewToken. *)
Definition NewToken (s : string) (isLemma : bool) : option token :=
  match assoc s common with
  | Some (t, f) => if isLemma then t else f
  | None => new_token_uncached s isLemma
  end.

End WithUnicode.
