(** * Decl: model of the methods that print a queue, a trie and a filter.

    /repo/tokenqueue/queue.go:72-74, /repo/filters/synonyms/trie/trie.go:32-57, 128-158,
    /repo/filters/synonyms/filter.go:307-333.  Maps are printed in the order of iteration, which Go leaves open: the functions
    here print in the order of the lists, and [prints] relates a filter to everything its Decl can return. *)

From Coq Require Import Permutation.
From Verif Require Import Base Utf8 Token Queue Cli Trie Synonyms Generators Render.

Definition nl : string := newline.

Section Print.
(** strconv.IsPrint *)
Variable isPrint : N -> bool.

(** queue.go:72-74: %q of a slice of tokens uses (Token).String, token.go:14-16 *)
Definition queue_String (q : queue) : string :=
  ("[" ++ join " " (map (fun t => Quote isPrint (tvalue t)) q) ++ "]")%string.

(** trie.go:129-158 *)
Fixpoint node_String (n : node) : string :=
  let 'Node children has canonical := n in
  ("&trie.Node{" ++ nl ++
   (if has then tab ++ "HasCanonical: true," ++ nl else "") ++
   (if seqb canonical "" then "" else "Canonical: " ++ Quote isPrint canonical ++ "," ++ nl) ++
   match children with
   | [] => ""
   | _ :: _ => "Children: map[rune]*trie.Node{" ++ nl ++
     (fix each (cs : list (N * node)) : string :=
        match cs with
        | [] => ""
        | (r, child) :: cs' => "'" ++ encode_rune r ++ "': " ++ node_String child ++ "," ++ nl ++ each cs'
        end) children ++
     "}," ++ nl
   end ++
   "}")%string.

(** trie.go:32-57; [ignore]: the keys of the map in the order of iteration (all values are true) *)
Definition trie_String (ignore : list N) (ignoreCase : bool) (root : node) : string :=
  ("&trie.RuneTrie{" ++ nl ++
   "Ignore: map[rune]bool{" ++ nl ++ sconcat (map (fun k => "'" ++ encode_rune k ++ "': true," ++ nl) ignore) ++ "}," ++ nl ++
   (if ignoreCase then "IgnoreCase: true," ++ nl else "") ++
   "Root: " ++ node_String root ++ "," ++ nl ++
   "}")%string.

(** filter.go:307-333 String, Decl *)
Definition filter_String (trie : option string) (maxWords : nat) : string :=
  ("&synonyms.Filter{" ++ nl ++
   match trie with Some s => "Trie: " ++ s ++ "," ++ nl | None => "" end ++
   (if Nat.ltb 0 maxWords then "MaxWords: " ++ itoa maxWords ++ "," ++ nl else "") ++
   "}")%string.

(** The same node with all its maps in some order. *)
Inductive reordered : node -> node -> Prop :=
| Reordered cs cs' ds h c : Permutation cs cs' -> Forall2 (fun x y => fst x = fst y /\ reordered (snd x) (snd y)) cs' ds ->
    reordered (Node cs h c) (Node ds h c).

(** What Decl can return. *)
Inductive prints : built -> string -> Prop :=
| Prints_nil n : prints (mkBuilt None n) (filter_String None n)
| Prints_trie t n ignore root : NoDup ignore -> (forall r, In r ignore <-> In r (t_ignore t)) -> reordered (t_root t) root ->
    prints (mkBuilt (Some t) n) (filter_String (Some (trie_String ignore (t_ignoreCase t) root)) n).
End Print.
