(** * Words: a concrete word segmenter (UAX #29 word boundaries, rules WB3-WB16).

    /repo/tokenizer.go:11,34 uses package github.com/clipperhouse/uax29 v1.11.0, which is not in /repo.
    This file is a stand-in for it: the rules of the Unicode standard, with the
    classes of UnicodeData.v.  Theorems that mention [words_scan] are about the stand-in; the others hold for
    every segmenter with the stated contract.  It shows that the scanner contract is satisfiable and lets the examples of the
    repository's own tests run on the model (RepoTests.v). *)

From Verif Require Import Base Utf8 Unicode UnicodeData Tokenizer.
Local Open Scope N_scope.

(** The runes of [s], each with the bytes it was decoded from (cf. [Utf8.runes]). *)
Fixpoint chunks (s : string) : list (N * string) :=
  match s with
  | EmptyString => []
  | String c1 s1 =>
    let b1 := byte_of c1 in
    let one := String c1 EmptyString in
    if b1 <? 128 then (b1, one) :: chunks s1
    else if in_range 194 223 b1 then
      match s1 with
      | String c2 s2 =>
        if cont (byte_of c2) then (rune2 b1 (byte_of c2), String c1 (String c2 EmptyString)) :: chunks s2
        else (RuneError, one) :: chunks s1
      | EmptyString => (RuneError, one) :: chunks s1
      end
    else if in_range 224 239 b1 then
      match s1 with
      | String c2 (String c3 s3) =>
        if in_range (lo3 b1) (hi3 b1) (byte_of c2) && cont (byte_of c3)
        then (rune3 b1 (byte_of c2) (byte_of c3),
              String c1 (String c2 (String c3 EmptyString))) :: chunks s3
        else (RuneError, one) :: chunks s1
      | _ => (RuneError, one) :: chunks s1
      end
    else if in_range 240 244 b1 then
      match s1 with
      | String c2 (String c3 (String c4 s4)) =>
        if in_range (lo4 b1) (hi4 b1) (byte_of c2) && cont (byte_of c3) && cont (byte_of c4)
        then (rune4 b1 (byte_of c2) (byte_of c3) (byte_of c4),
              String c1 (String c2 (String c3 (String c4 EmptyString)))) :: chunks s4
        else (RuneError, one) :: chunks s1
      | _ => (RuneError, one) :: chunks s1
      end
    else (RuneError, one) :: chunks s1
  end.

Definition wbc (r : N) : wbclass := wb_lookup wb_ranges r.

Definition is_nl (c : wbclass) := match c with WNewline | WCR | WLF => true | _ => false end.
Definition is_ign (c : wbclass) := match c with WExtend | WFormat | WZWJ => true | _ => false end.
Definition is_ahl (c : wbclass) := match c with WALetter | WHebrew => true | _ => false end.
Definition is_heb (c : wbclass) := match c with WHebrew => true | _ => false end.
Definition is_num (c : wbclass) := match c with WNumeric => true | _ => false end.
Definition is_kat (c : wbclass) := match c with WKatakana => true | _ => false end.
Definition is_exn (c : wbclass) := match c with WExtendNumLet => true | _ => false end.
Definition is_sq (c : wbclass) := match c with WSingleQuote => true | _ => false end.
Definition is_dq (c : wbclass) := match c with WDoubleQuote => true | _ => false end.
Definition is_ws (c : wbclass) := match c with WWSegSpace => true | _ => false end.
Definition is_ri (c : wbclass) := match c with WRI => true | _ => false end.
Definition is_mid (c : wbclass) := match c with WMidLetter | WMidNumLet | WSingleQuote => true | _ => false end.
Definition is_midn (c : wbclass) := match c with WMidNum | WMidNumLet | WSingleQuote => true | _ => false end.

(** Left context: class of the previous rune; class of the last non-ignored rune and of the one
    before it; whether an odd number of RI precedes. *)
Record ctx := mkCtx { lastc : wbclass; p1 : wbclass; p2 : wbclass; odd_ri : bool }.

Fixpoint next_class (l : list (N * string)) : wbclass :=
  match l with
  | [] => WOther
  | (r, _) :: l' => if is_ign (wbc r) then next_class l' else wbc r
  end.

(** Is there a boundary before the rune [r], in context [cx], with [rest] following? *)
Definition boundary (cx : ctx) (r : N) (rest : list (N * string)) : bool :=
  let c := wbc r in
  let n := next_class rest in
  let a := p1 cx in
  if (match lastc cx, c with WCR, WLF => true | _, _ => false end) then false   (* WB3 *)
  else if is_nl (lastc cx) then true                                             (* WB3a *)
  else if is_nl c then true                                                      (* WB3b *)
  else if (match lastc cx with WZWJ => range_mem ext_pict r | _ => false end) then false (* WB3c *)
  else if is_ws (lastc cx) && is_ws c then false                                 (* WB3d *)
  else if is_ign c then false                                                    (* WB4 *)
  else if is_ahl a && is_ahl c then false                                        (* WB5 *)
  else if is_ahl a && is_mid c && is_ahl n then false                            (* WB6 *)
  else if is_ahl (p2 cx) && is_mid a && is_ahl c then false                      (* WB7 *)
  else if is_heb a && is_sq c then false                                         (* WB7a *)
  else if is_heb a && is_dq c && is_heb n then false                             (* WB7b *)
  else if is_heb (p2 cx) && is_dq a && is_heb c then false                       (* WB7c *)
  else if is_num a && is_num c then false                                        (* WB8 *)
  else if is_ahl a && is_num c then false                                        (* WB9 *)
  else if is_num a && is_ahl c then false                                        (* WB10 *)
  else if is_num (p2 cx) && is_midn a && is_num c then false                     (* WB11 *)
  else if is_num a && is_midn c && is_num n then false                           (* WB12 *)
  else if is_kat a && is_kat c then false                                        (* WB13 *)
  else if (is_ahl a || is_num a || is_kat a || is_exn a) && is_exn c then false  (* WB13a *)
  else if is_exn a && (is_ahl c || is_num c || is_kat c) then false              (* WB13b *)
  else if is_ri a && is_ri c && odd_ri cx then false                             (* WB15/16 *)
  else true.                                                                     (* WB999 *)

Definition advance (cx : ctx) (r : N) : ctx :=
  let c := wbc r in
  if is_ign c && negb (is_nl (lastc cx)) then mkCtx c (p1 cx) (p2 cx) (odd_ri cx)
  else mkCtx c c (p1 cx) (if is_ri c then (if is_ri (p1 cx) then negb (odd_ri cx) else true) else false).

(** [cur] is the piece being built. *)
Fixpoint seg_loop (cx : ctx) (cur : string) (l : list (N * string)) : list string :=
  match l with
  | [] => [cur]
  | (r, b) :: rest =>
    if boundary cx r rest then cur :: seg_loop (advance cx r) b rest
    else seg_loop (advance cx r) (cur ++ b)%string rest
  end.

Definition word_segments (s : string) : list string :=
  match chunks s with
  | [] => []
  | (r, b) :: rest => seg_loop (advance (mkCtx WOther WOther WOther false) r) b rest
  end.

(** The example scanner. *)
Definition words_scan : oracle := scan_of word_segments.
