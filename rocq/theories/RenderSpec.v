(** * RenderSpec: as much of Go's syntax as a generated dictionary has (https://go.dev/ref/spec). *)

From Verif Require Import Base Utf8.
Local Open Scope N_scope.

(** Escape characters that stand for one byte. *)
Definition simple_escapes : list (ascii * N) :=
  [("a", 7); ("b", 8); ("f", 12); ("n", 10); ("r", 13); ("t", 9); ("v", 11)]%char ++ [(chr 92, 92); (chr 34, 34)].

Definition digit_value (c : ascii) : option N :=
  let b := byte_of c in
  if (48 <=? b) && (b <=? 57) then Some (b - 48)
  else if (97 <=? b) && (b <=? 102) then Some (b - 87)
  else if (65 <=? b) && (b <=? 70) then Some (b - 55)
  else None.

(** The digits [s] to [base] have the value [n]; [acc]: value of the digits before. *)
Inductive digits (base : N) : N -> string -> N -> Prop :=
| Dg_end acc : digits base acc EmptyString acc
| Dg_more acc c d s n : digit_value c = Some d -> d < base -> digits base (acc * base + d) s n -> digits base acc (String c s) n.

(** [src], between double quotes, is a string literal with value [v]. *)
Inductive literal : string -> string -> Prop :=
| L_end : literal EmptyString EmptyString
| L_char r src v : valid_rune r = true -> ~ In r [0; 10; 34; 92; 65279] -> literal src v ->
    literal (encode_rune r ++ src) (encode_rune r ++ v)
| L_simple c n src v : In (c, n) simple_escapes -> literal src v ->
    literal (String (chr 92) (String c src)) (String (chr n) v)
| L_hex ds n src v : String.length ds = 2%nat -> digits 16 0 ds n -> literal src v ->
    literal (String (chr 92) (String "x" (ds ++ src))) (String (chr n) v)
| L_octal ds n src v : String.length ds = 3%nat -> digits 8 0 ds n -> n < 256 -> literal src v ->
    literal (String (chr 92) (ds ++ src)) (String (chr n) v)
| L_little_u ds r src v : String.length ds = 4%nat -> digits 16 0 ds r -> valid_rune r = true -> literal src v ->
    literal (String (chr 92) (String "u" (ds ++ src))) (encode_rune r ++ v)
| L_big_u ds r src v : String.length ds = 8%nat -> digits 16 0 ds r -> valid_rune r = true -> literal src v ->
    literal (String (chr 92) (String "U" (ds ++ src))) (encode_rune r ++ v).

Definition quoted (src : string) : string := String (chr 34) (src ++ String (chr 34) EmptyString).

Definition only (cs : list N) (s : string) : Prop := forall c, In c (list_ascii_of_string s) -> In (byte_of c) cs.
(** White space; after a literal a line break would end the statement. *)
Definition white := only [32; 9; 13; 10].
Definition white_in_line := only [32; 9; 13].

(** [src], between braces, is a list of elements with the entries [m]. *)
Inductive elements : string -> list (string * string) -> Prop :=
| E_end w : white w -> elements w []
| E_last w k' k a b v' v c : white w -> literal k' k -> white_in_line a -> white b -> literal v' v -> white_in_line c ->
    elements (w ++ quoted k' ++ a ++ ":" ++ b ++ quoted v' ++ c) [(k, v)]
| E_more w k' k a b v' v c rest m : white w -> literal k' k -> white_in_line a -> white b -> literal v' v -> white_in_line c ->
    elements rest m ->
    elements (w ++ quoted k' ++ a ++ ":" ++ b ++ quoted v' ++ c ++ "," ++ rest) ((k, v) :: m).

(** Empty lines and comments. *)
Inductive remarks : string -> Prop :=
| R_end : remarks EmptyString
| R_empty s : remarks s -> remarks (String (chr 10) s)
| R_comment line s : ~ In (chr 10) (list_ascii_of_string line) -> remarks s -> remarks ("//" ++ line ++ String (chr 10) s).

(** [src] is a file of package [pkg] that declares the variable mappings with the entries [m]. *)
Definition declares (pkg src : string) (m : list (string * string)) : Prop :=
  exists a b body, src = (a ++ "package " ++ pkg ++ String (chr 10) b ++
      "var mappings = map[string]string{" ++ body ++ "}" ++ String (chr 10) EmptyString)%string /\
    remarks a /\ remarks b /\ elements body m.

(** gofmt only changes the layout: formatting a declaration succeeds, and it declares the same. *)
Definition formatter_ok (format : string -> string * option error) : Prop :=
  forall pkg src m, declares pkg src m -> exists out, format src = (out, None) /\ declares pkg out m.

(** The generators look for [{"], [", "] and ["}] to put in line breaks, and find them within these strings: *)
Definition broken_inside (s : string) : Prop :=
  (exists x, s = x ++ "{")%string \/ (exists x, s = "}" ++ x)%string \/
  (exists x y, s = x ++ String (chr 34) ("}" ++ y))%string \/ (exists x, s = x ++ String (chr 34) ", ")%string.

(** And within a comma and a space, except as a key that is not the first. *)
Definition broken_map (m : list (string * string)) : Prop :=
  (exists k v, In (k, v) m /\ (broken_inside k \/ broken_inside v \/ v = ", "%string)) \/ (exists v m', m = (", ", v)%string :: m').

(** What is printed as it is: no control characters and no byte order mark. *)
Definition print_ok (isPrint : N -> bool) : Prop := forall r, isPrint r = true -> 32 <= r /\ r <> 127 /\ r <> 65279.
