(** * Ascii: model of /repo/filters/ascii/fold.go and filter.go *)

From Verif Require Import Base Utf8 Unicode Token Stream Filters AsciiTable.
Local Open Scope N_scope.

Definition mem_N (x : N) (l : list N) : bool := existsb (N.eqb x) l.

(** The [switch r] of fold.go:15-2153: the arm containing [r], if any (Go rejects duplicate cases, so
    at most one). *)
Fixpoint find_arm (arms : list (list N * list N * bool)) (r : N) : option (list N * bool) :=
  match arms with
  | [] => None
  | (cs, out, flag) :: rest => if mem_N r cs then Some (out, flag) else find_arm rest r
  end.

(** fold.go:10-2155: one iteration; appends to the buffer and updates [folded]. *)
Definition fold_step (acc : string * bool) (r : N) : string * bool :=
  let '(b, folded) := acc in
  if r <? 128 then ((b ++ encode_rune r)%string, folded)
  else
    match find_arm fold_arms r with
    | Some (out, flag) => ((b ++ encode out)%string, folded || flag)
    | None => ((b ++ encode_rune r)%string, folded)
    end.

(** fold.go:6-2163 FoldString *)
Definition FoldString (s : string) : string * bool :=
  let '(b, folded) := fold_left fold_step (runes s) (EmptyString, false) in
  if (folded : bool) then (b, true) else (s, false).

Section WithUnicode.
Variable U : unicode.
(** ascii/filter.go:33-39 folder *)
Definition folder : mapfunc := fun t =>
  let '(fold, folded) := FoldString (tvalue t) in
  if (folded : bool) then NewToken U fold true else Some t.

(** ascii/filter.go:31 Fold *)
Definition Fold : Filter := Mapper [folder].
End WithUnicode.
