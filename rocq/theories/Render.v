(** * Render: model of how the generators write their map as Go source.

    /repo/filters/nba/generate/main.go:79-112 [write], the same in /repo/filters/stackoverflow/generate/main.go:135-167
    (the end of [writeDictionary]) and /repo/filters/contractions/generate/main.go:44-82 [write].

    Parameters: what strconv considers printable, gofmt, and the outcomes of creating and writing the file. *)

From Verif Require Import Base Utf8 Unicode Words ContractionsGen Generators.
Local Open Scope N_scope.

(* ------------------------------------------------------------------ *)
(** ** Standard library *)

(** lowerhex[n] *)
Definition hexdigit (n : N) : ascii := chr (if n <? 10 then 48 + n else 87 + n).

(** [k] hexadecimal digits of [n], as the loops [for s := 12; s >= 0; s -= 4] in strconv *)
Fixpoint hexdigits (k : nat) (n : N) : string :=
  match k with
  | O => EmptyString
  | S k' => (hexdigits k' (n / 16) ++ String (hexdigit (n mod 16)) EmptyString)%string
  end.

Definition backslash : ascii := chr 92.
Definition quote : ascii := chr 34.
Definition newline : string := String (chr 10) EmptyString.
Definition tab : string := String (chr 9) EmptyString.

Section Quote.
(** strconv.IsPrint *)
Variable isPrint : N -> bool.

(** strconv/quote.go appendEscapedRune, for double quotes *)
Definition escaped_rune (r : N) : string :=
  if (r =? 34) || (r =? 92) then String backslash (String (chr r) EmptyString)
  else if isPrint r then encode_rune r
  else if r =? 7 then String backslash "a"
  else if r =? 8 then String backslash "b"
  else if r =? 12 then String backslash "f"
  else if r =? 10 then String backslash "n"
  else if r =? 13 then String backslash "r"
  else if r =? 9 then String backslash "t"
  else if r =? 11 then String backslash "v"
  else if (r <? 32) || (r =? 127) then String backslash (String "x" (hexdigits 2 r))
  else if r <? 65536 then String backslash (String "u" (hexdigits 4 r))
  else String backslash (String "U" (hexdigits 8 r)).

(** strconv/quote.go appendQuotedWith, one round of its loop; [rb] is a rune with its bytes *)
Definition escaped (rb : N * string) : string :=
  let '(r, b) := rb in
  match b with
  | String c EmptyString =>
    if r =? RuneError then String backslash (String "x" (hexdigits 2 (byte_of c)))
    else escaped_rune r
  | _ => escaped_rune r
  end.

(** strconv.Quote *)
Definition Quote (s : string) : string :=
  String quote (sconcat (map escaped (chunks s)) ++ String quote EmptyString).

(** fmt's %#v for a map[string]string that is not nil; fmt sorts the entries, here they are in the order of the list *)
Definition GoSyntax (m : gmap) : string :=
  ("map[string]string{" ++ join ", " (map (fun kv => Quote (fst kv) ++ ":" ++ Quote (snd kv))%string m) ++ "}")%string.
End Quote.

(** strings.ReplaceAll(s, old, new) for [old] not empty; [skip]: bytes of a replaced occurrence still to be passed over *)
Fixpoint replace_from (old new : string) (skip : nat) (s : string) : string :=
  match s with
  | EmptyString => EmptyString
  | String c r =>
    match skip with
    | S k => replace_from old new k r
    | O =>
      if String.prefix old s then (new ++ replace_from old new (String.length old - 1) r)%string
      else String c (replace_from old new 0 r)
    end
  end.
Definition ReplaceAll (s old new : string) : string := replace_from old new 0 s.

(* ------------------------------------------------------------------ *)
(** ** The generators *)

(** What differs between the three: the text of the template before the map, and the indentation in the replacements. *)
Record target := mkTarget { t_head : string; t_indent : string }.

Definition generated_comment : string :=
  (newline ++ newline ++ "// This file is generated. Best not to modify it, as it will likely be overwritten." ++ newline ++ newline)%string.

(** nba/generate/main.go:87-93, 114-120 *)
Definition nba_target : target :=
  mkTarget (newline ++ "package nba" ++ generated_comment ++ "var mappings = ") (tab ++ tab).

(** stackoverflow/generate/main.go:142-148, 169-175 *)
Definition so_target : target :=
  mkTarget (newline ++ "package stackoverflow" ++ generated_comment ++ "var mappings = ") "".

(** contractions/generate/main.go:57-63, 101-108 *)
Definition contractions_target : target :=
  mkTarget (newline ++ "package contractions" ++ generated_comment ++
    "// maps do not guarantee order, so this will look random" ++ newline ++ "var mappings = ") "".

Section Write.
Variable isPrint : N -> bool.
(** go/format.Source *)
Variable format_Source : string -> string * option error.
(** os.Create("generated.go") *)
Variable os_Create : option error.
(** f.Write: the bytes that get into the file, and the error *)
Variable file_Write : string -> string * option error.

(** tmpl.Execute, which cannot fail here, and the three calls of ReplaceAll *)
Definition source (t : target) (m : gmap) : string :=
  (t_head t ++ GoSyntax isPrint m ++ newline)%string.

Definition broken_up (t : target) (m : gmap) : string :=
  let q := String quote EmptyString in
  let nl := (newline ++ t_indent t)%string in
  let split := ReplaceAll (source t m) (q ++ ", " ++ q)%string (q ++ "," ++ nl ++ q)%string in
  let split := ReplaceAll split ("{" ++ q)%string ("{" ++ nl ++ q)%string in
  ReplaceAll split (q ++ "}")%string (q ++ "," ++ nl ++ "}")%string.

(** The error returned, and the contents of generated.go if it was created *)
Definition write (t : target) (m : gmap) : option error * option string :=
  let '(formatted, fmtErr) := format_Source (broken_up t m) in
  match fmtErr with
  | Some e => (Some e, None)
  | None =>
    match os_Create with
    | Some e => (Some e, None)
    | None => let '(content, e) := file_Write formatted in (e, Some content)
    end
  end.
End Write.
