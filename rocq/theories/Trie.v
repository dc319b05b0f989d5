(** * Trie: model of /repo/filters/synonyms/trie/trie.go (String methods: Decl.v) *)

From Verif Require Import Base Utf8 Unicode Token.
Local Open Scope N_scope.

(** trie.go:59-63 [node]; [children] as an association list (a Go map: at most one child per
    rune, see [set_child]). *)
Inductive node := Node (children : list (N * node)) (hasCanonical : bool) (canonical : string).

Definition n_children (n : node) := let 'Node c _ _ := n in c.
Definition n_has (n : node) := let 'Node _ h _ := n in h.
Definition n_canonical (n : node) := let 'Node _ _ c := n in c.

(** [&node{}] *)
Definition empty_node : node := Node [] false EmptyString.

Fixpoint get_child (r : N) (cs : list (N * node)) : option node :=
  match cs with
  | [] => None
  | (r', n) :: cs' => if r =? r' then Some n else get_child r cs'
  end.

(** [n.children[r] = child] *)
Fixpoint set_child (r : N) (n : node) (cs : list (N * node)) : list (N * node) :=
  match cs with
  | [] => [(r, n)]
  | (r', n') :: cs' => if r =? r' then (r, n) :: cs' else (r', n') :: set_child r n cs'
  end.

(** trie.go:12-29 RuneTrie, New; [ignore] as the list of its runes. *)
Record trie := mkTrie { t_root : node; t_ignore : list N; t_ignoreCase : bool }.
Definition trie_New (ignoreCase : bool) (ignore : list N) : trie :=
  mkTrie empty_node ignore ignoreCase.

Definition nmem (x : N) (l : list N) : bool := existsb (N.eqb x) l.

Section WithUnicode.
Variable U : unicode.

(** trie.go:70-76 and 102-108: the rune after case folding, or None if it is skipped. *)
Definition keep_rune (t : trie) (r : N) : option N :=
  let r := if t_ignoreCase t then uToLower U r else r in
  if nmem r (t_ignore t) then None else Some r.

(** The runes that survive, for one token / for a list of tokens, in the order in which the two
    nested loops of Add and SearchCanonical visit them. *)
Fixpoint keep_runes (t : trie) (rs : list N) : list N :=
  match rs with
  | [] => []
  | r :: rs' =>
    match keep_rune t r with
    | None => keep_runes t rs'
    | Some r' => r' :: keep_runes t rs'
    end
  end.

(** trie.go:66-92 Add: walk down (creating missing nodes) and set the canonical at the end.
    The pointer walk is rendered as a rebuild of the path. *)
Fixpoint add_path (n : node) (path : list N) (canonical : string) : node :=
  match path with
  | [] => Node (n_children n) true canonical
  | r :: path' =>
    let child := match get_child r (n_children n) with
                 | Some c => c
                 | None => empty_node
                 end in
    Node (set_child r (add_path child path' canonical) (n_children n)) (n_has n) (n_canonical n)
  end.

Definition token_path (t : trie) (tokens : list token) : list N :=
  flat_map (fun tok => keep_runes t (runes (tvalue tok))) tokens.

Definition trie_Add (t : trie) (tokens : list token) (canonical : string) : trie :=
  mkTrie (add_path (t_root t) (token_path t tokens) canonical) (t_ignore t) (t_ignoreCase t).

(** trie.go:101-114, one token: walk down from [n]; None = [break outer].  A position is a
    node together with its path from the root; node pointers are equal iff their paths are. *)
Fixpoint walk (t : trie) (pos : list N * node) (rs : list N) : option (list N * node) :=
  match rs with
  | [] => Some pos
  | r :: rs' =>
    match keep_rune t r with
    | None => walk t pos rs'
    | Some r' =>
      match get_child r' (n_children (snd pos)) with
      | None => None
      | Some c => walk t (fst pos ++ [r'], c) rs'
      end
    end
  end.

Fixpoint path_eqb (a b : list N) : bool :=
  match a, b with
  | [], [] => true
  | x :: a', y :: b' => (x =? y) && path_eqb a' b'
  | _, _ => false
  end.

(** found, canonical, consumed *)
Definition found_t := (bool * string * nat)%type.

(** trie.go:99-123; [i] is the loop index, [res] the path of the variable [result]. *)
Fixpoint search_loop (t : trie) (i : nat) (pos : list N * node) (res : option (list N))
    (acc : found_t) (tokens : list token) : found_t :=
  match tokens with
  | [] => acc
  | tok :: rest =>
    match walk t pos (runes (tvalue tok)) with
    | None => acc
    | Some pos' =>
      let differs := match res with None => true | Some p => negb (path_eqb (fst pos') p) end in
      if n_has (snd pos') && differs
      then search_loop t (S i) pos' (Some (fst pos')) (true, n_canonical (snd pos'), S i) rest
      else search_loop t (S i) pos' res acc rest
    end
  end.

(** trie.go:95-126 SearchCanonical *)
Definition SearchCanonical (t : trie) (tokens : list token) : found_t :=
  search_loop t 0 ([], t_root t) None (false, EmptyString, 0%nat) tokens.

End WithUnicode.
