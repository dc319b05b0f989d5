(** * ContractionsGen: model of /repo/filters/contractions/generate/main.go, getMappings.

    Not modelled: rendering the map as Go source (write, main.go:46-86).  [strings.ToUpper] is modelled like
    [strings.ToLower] with a table [upper] of the standard library as parameter; [fmt.Errorf] with its %q verbs is the
    parameter [errorf]. *)

From Verif Require Import Base Utf8 Unicode.
Local Open Scope N_scope.

Section Gen.
Variable U : unicode.
Variable upper : N -> N.
Variable errorf : string -> string -> error.

(** ASCII upper-casing of a byte. *)
Definition upper_ascii (b : N) : N := if in_range 97 122 b then b - 32 else b.

Fixpoint map_ascii_upper (s : string) : string :=
  match s with
  | EmptyString => EmptyString
  | String c s' => String (chr (upper_ascii (byte_of c))) (map_ascii_upper s')
  end.

(** [strings.ToUpper], used at main.go:26 and main.go:100 *)
Definition strings_ToUpper (s : string) : string :=
  if is_ascii_string s then map_ascii_upper s else encode (map upper (runes s)).

(** main.go:99-103 title: [s[:1]] panics on an empty string *)
Definition title (s : string) : outcome string :=
  match s with
  | EmptyString => Panic
  | String c tail => Ret (strings_ToUpper (String c EmptyString) ++ tail)%string
  end.

(** main.go:88 [a] *)
Definition a_byte : N := 39.

(** [strings.Contains(s, a)] *)
Fixpoint contains_a (s : string) : bool :=
  match s with
  | EmptyString => false
  | String c s' => (byte_of c =? a_byte) || contains_a s'
  end.

(** [strings.Replace(s, a, "’", -1)] *)
Definition smart_quote : string := "’".
Fixpoint replace_a (s : string) : string :=
  match s with
  | EmptyString => EmptyString
  | String c s' => if byte_of c =? a_byte then (smart_quote ++ replace_a s')%string else String c (replace_a s')
  end.

(** main.go:90-97 apostrophes *)
Definition apostrophes (s : string) : list string :=
  [s] ++ (if contains_a s then [replace_a s] else []).

(** main.go:23-27 [cases] *)
Definition cases : list (string -> outcome string) :=
  [fun s => Ret (strings_ToLower U s); title; fun s => Ret (strings_ToUpper s)].

(** The map [mappings]: its entries, the latest last.  [Some e]: return with an error. *)
Definition gmap := list (string * string).

(** main.go:31-38, the loop over [cases] *)
Fixpoint case_loop (fs : list (string -> outcome string)) (apostrophed expansion : string) (m : gmap)
  : outcome (gmap * option error) :=
  match fs with
  | [] => Ret (m, None)
  | f :: fs' =>
    do key <- f apostrophed;
    match assoc key m with
    | Some existing => Ret (m, Some (errorf key existing))
    | None =>
      do v <- f expansion;
      case_loop fs' apostrophed expansion (m ++ [(key, v)])
    end
  end.

(** main.go:30-39, the loop over [apostrophes(contraction)] *)
Fixpoint apos_loop (l : list string) (expansion : string) (m : gmap) : outcome (gmap * option error) :=
  match l with
  | [] => Ret (m, None)
  | apostrophed :: l' =>
    do (m', e) <- case_loop cases apostrophed expansion m;
    match e with
    | Some _ => Ret (m', e)
    | None => apos_loop l' expansion m'
    end
  end.

(** main.go:29-41, the loop over the map [contractions], here in the order of [todo] *)
Fixpoint base_loop (todo : list (string * string)) (m : gmap) : outcome (gmap * option error) :=
  match todo with
  | [] => Ret (m, None)
  | (contraction, expansion) :: todo' =>
    do (m', e) <- apos_loop (apostrophes contraction) expansion m;
    match e with
    | Some _ => Ret (m', e)
    | None => base_loop todo' m'
    end
  end.

(** main.go:20-44 getMappings *)
Definition getMappings (contractions : list (string * string)) : outcome (gmap * option error) :=
  base_loop contractions [].
End Gen.
