(** * GenSpec: vocabulary of the statements about the dictionary generators (C60 - C63). *)

From Coq Require Import ZArith.
From Verif Require Import Base Utf8 Unicode Ascii Generators.

(** How often a character occurs. *)
Definition occurrences (c : ascii) (s : string) : nat := count_occ ascii_dec (list_ascii_of_string s) c.

(** ** NBA *)

Section WithUnicode.
Variable U : unicode.

(** White space only. *)
Definition blank (s : string) : Prop :=
  exists rs, s = encode rs /\ forall r, In r rs -> valid_rune r = true /\ uIsSpace U r = true.

(** [t] is [s] without the white space around it. *)
Definition stripped (s t : string) : Prop :=
  (exists a b, s = (a ++ t ++ b)%string /\ blank a /\ blank b) /\
  (forall r rest, valid_rune r = true -> uIsSpace U r = true -> t <> (encode_rune r ++ rest)%string) /\
  (forall r rest, valid_rune r = true -> uIsSpace U r = true -> t <> (rest ++ encode_rune r)%string).

(** The entry for a name as listed in the roster, "last, first": the name in reading order, under a key of the name and, if the name has
    letters to fold, the folded name. *)
Definition player (name key canonical : string) : Prop :=
  exists last first l f, name = (last ++ "," ++ first)%string /\ stripped last l /\ stripped first f /\
    canonical = (f ++ " " ++ l)%string /\
    ((exists x, FoldString canonical = (x, true) /\ key = (canonical ++ ", " ++ x)%string) \/
     (snd (FoldString canonical) = false /\ key = canonical)).
End WithUnicode.

(** ** Stack Overflow *)

(** The pages that are read from page [p] on, at most [n]. *)
Inductive fetched (api : nat -> string -> wrapper + error) (site : string) : nat -> nat -> list (list item) -> Prop :=
| F_limit p : fetched api site p 0 []
| F_last p n its b : api p site = inl (mkWrapper its false "" "" b) -> fetched api site p (S n) [its]
| F_more p n its b ps : api p site = inl (mkWrapper its true "" "" b) -> (b <= 10)%Z -> fetched api site (S p) n ps ->
    fetched api site p (S n) (its :: ps).

(** The tags, without those for moderators. *)
Definition live (ps : list (list item)) (t : item) : Prop := exists p, In p ps /\ In t p /\ moderator t = false.

Definition with_spaces (s : string) : string :=
  string_of_list_ascii (map (fun c => if ascii_dec c "-" then " "%char else c) (list_ascii_of_string s)).

Definition exceptions : list string := ["drop-down"; "datatable"; "for"; "this"]%string.

(** [w] is a word for tag [t]. *)
Definition says (t : item) (w : string) : Prop :=
  w = with_spaces (iname t) \/ exists s, In s (isynonyms t) /\ w = with_spaces s.

(** [w] is listed in the dictionary, in a list of synonyms, with the canonical [c]. *)
Definition listed (m : list (string * string)) (w c : string) : Prop :=
  exists ws, (forall x, In x ws -> occurrences "," x = 0) /\ In w ws /\ In (String.concat ", " ws, c) m.

(** Tags are written without commas. *)
Definition no_commas (ps : list (list item)) : Prop :=
  forall t, live ps t -> occurrences "," (iname t) = 0 /\ forall s, In s (isynonyms t) -> occurrences "," s = 0.

(** No word stands for two tags. *)
Definition consistent (ps : list (list item)) : Prop :=
  forall t1 t2 w, live ps t1 -> live ps t2 -> says t1 w -> says t2 w -> iname t1 = iname t2.

(** No synonym belongs to two tags, and no two tags are written alike; a tag may be a synonym of another. *)
Definition synonyms_consistent (ps : list (list item)) : Prop :=
  (forall t1 t2 s1 s2, live ps t1 -> live ps t2 -> In s1 (isynonyms t1) -> In s2 (isynonyms t2) ->
     with_spaces s1 = with_spaces s2 -> iname t1 = iname t2) /\
  (forall t1 t2, live ps t1 -> live ps t2 -> with_spaces (iname t1) = with_spaces (iname t2) -> iname t1 = iname t2).
