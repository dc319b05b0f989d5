(** * DeclSpec: when a text without comments is a sequence of Go's lexical elements (https://go.dev/ref/spec). *)

From Coq Require Import Permutation.
From Verif Require Import Base Utf8 Trie Synonyms RenderSpec CliSpec.
Local Open Scope N_scope.

(** Between single quotes. *)
Inductive rune_literal : string -> Prop :=
| RL_char r : valid_rune r = true -> ~ In r [0; 10; 39; 92; 65279] -> rune_literal (encode_rune r)
| RL_simple c : In (byte_of c) [97; 98; 102; 110; 114; 116; 118; 92; 39] -> rune_literal (String (chr 92) (String c EmptyString))
| RL_hex ds n : String.length ds = 2%nat -> digits 16 0 ds n -> rune_literal (String (chr 92) (String "x" ds))
| RL_octal ds n : String.length ds = 3%nat -> digits 8 0 ds n -> n < 256 -> rune_literal (String (chr 92) ds)
| RL_little_u ds r : String.length ds = 4%nat -> digits 16 0 ds r -> valid_rune r = true -> rune_literal (String (chr 92) (String "u" ds))
| RL_big_u ds r : String.length ds = 8%nat -> digits 16 0 ds r -> valid_rune r = true -> rune_literal (String (chr 92) (String "U" ds)).

(** Double quotes enclose string literals, single quotes rune literals; there is no backslash or back quote elsewhere. *)
Inductive lexes : string -> Prop :=
| Lx_end : lexes EmptyString
| Lx_other c s : ~ In (byte_of c) [34; 39; 92; 96] -> lexes s -> lexes (String c s)
| Lx_string q v s : literal q v -> lexes s -> lexes (quoted q ++ s)
| Lx_rune q s : rune_literal q -> lexes s -> lexes (String (chr 39) (q ++ String (chr 39) s)).

(** Can stand between single quotes as it is. *)
Definition writable (r : N) : Prop := valid_rune r = true /\ ~ In r [0; 10; 39; 92; 65279].

(** All runes that lead to a child. *)
Inductive all_runes (P : N -> Prop) : node -> Prop :=
| AR cs h c : Forall (fun x => P (fst x) /\ all_runes P (snd x)) cs -> all_runes P (Node cs h c).

(** ** The text of a declaration; maps are in any order *)
Local Open Scope string_scope.

Inductive node_text : node -> string -> Prop :=
| NT cs ds has can q kids : Permutation cs ds -> literal q can -> kids_text ds kids ->
    node_text (Node cs has can) ("&trie.Node{
" ++ (if has then "	HasCanonical: true,
" else "") ++ match can with "" => "" | _ => "Canonical: " ++ quoted q ++ ",
" end ++ match cs with [] => "" | _ => "Children: map[rune]*trie.Node{
" ++ kids ++ "},
" end ++ "}")
with kids_text : list (N * node) -> string -> Prop :=
| KT_end : kids_text [] ""
| KT_more r n cs s rest : node_text n s -> kids_text cs rest -> kids_text ((r, n) :: cs) ("'" ++ encode_rune r ++ "': " ++ s ++ ",
" ++ rest).

Fixpoint ignore_text (rs : list N) : string :=
  match rs with
  | [] => ""
  | r :: rs' => "'" ++ encode_rune r ++ "': true,
" ++ ignore_text rs'
  end.

Definition words_text (n : nat) (s : string) : Prop :=
  match n with
  | O => s = ""
  | _ => exists d, decimal n d /\ s = "MaxWords: " ++ d ++ ",
"
  end.

Inductive filter_text : built -> string -> Prop :=
| FT_nil n w : words_text n w -> filter_text (mkBuilt None n) ("&synonyms.Filter{
" ++ w ++ "}")
| FT_trie t n ig root w : NoDup ig -> (forall r, In r ig <-> In r (t_ignore t)) -> node_text (t_root t) root -> words_text n w ->
    filter_text (mkBuilt (Some t) n) ("&synonyms.Filter{
Trie: &trie.RuneTrie{
Ignore: map[rune]bool{
" ++ ignore_text ig ++ "},
" ++ (if t_ignoreCase t then "IgnoreCase: true,
" else "") ++ "Root: " ++ root ++ ",
},
" ++ w ++ "}").

(** The values between brackets, in quotes, with a space between two. *)
Definition queue_text (vs : list string) (s : string) : Prop :=
  exists qs, Forall2 literal qs vs /\ s = "[" ++ String.concat " " (map quoted qs) ++ "]".
