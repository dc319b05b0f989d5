(** * WordSplit: the word segmenter of Words.v as a split function for bufio.Scanner.

    /repo/tokenizer.go:34 passes the words package's SplitFunc to a bufio.Scanner.  Like Words.v this is a stand-in for
    the package, which is not in /repo; it decides on a word as soon as the data at hand settle it.  Like the
    package's function it sees only the data from the beginning of the word on, and not what precedes. *)

From Verif Require Import Base Utf8 Unicode UnicodeData Tokenizer Words.

(** The runes of [d] that no further data can change: those with at least 4 bytes at hand. *)
Fixpoint settled (n : nat) (cs : list (N * string)) : list (N * string) :=
  match cs with
  | [] => []
  | (r, b) :: rest => if Nat.leb 4 n then (r, b) :: settled (n - String.length b) rest else []
  end.

(** The class of the next rune that counts, if it is known. *)
Fixpoint next_known (l : list (N * string)) : option wbclass :=
  match l with
  | [] => None
  | (r, _) :: l' => if is_ign (wbc r) then next_known l' else Some (wbc r)
  end.

(** Rules WB6, WB7b and WB12 look ahead. *)
Definition looks_ahead (c : wbclass) : bool := is_mid c || is_midn c || is_dq c.

Fixpoint first_word (cx : ctx) (cur : string) (l : list (N * string)) : option string :=
  match l with
  | [] => None
  | (r, b) :: rest =>
    if looks_ahead (wbc r) && (match next_known rest with None => true | Some _ => false end) then None
    else if boundary cx r rest then Some cur
    else first_word (advance cx r) (cur ++ b)%string rest
  end.

Definition start_ctx : ctx := mkCtx WOther WOther WOther false.

Definition word_split (d : string) (at_eof : bool) : option string :=
  if at_eof then match word_segments d with p :: _ => Some p | [] => None end
  else match settled (String.length d) (chunks d) with
  | [] => None
  | (r, b) :: rest => first_word (advance start_ctx r) b rest
  end.
