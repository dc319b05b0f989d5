(** * Html: model of /repo/tokenizer_html.go

    [html.Tokenizer] (golang.org/x/net/html) enters as the sequence of HTML tokens it
    delivers and its final error ([io.EOF] or another). *)

From Verif Require Import Base Utf8 Unicode Token Stream Tokenizer.

(** html.TokenType (without ErrorToken, which is the end of the sequence). *)
Inductive htype := StartTag | EndTag | SelfClosing | HText | Comment | Doctype.

(** atom.Atom: only Script, Style, none (0) and "some other" matter; other atoms are numbered. *)
Inductive atom := AtomZero | Script | Style | OtherAtom (n : nat).

Definition atom_eqb (a b : atom) : bool :=
  match a, b with
  | AtomZero, AtomZero | Script, Script | Style, Style => true
  | OtherAtom n, OtherAtom m => Nat.eqb n m
  | _, _ => false
  end.

(** html.Token: Type, DataAtom and String(). *)
Record htoken := mkH { h_type : htype; h_atom : atom; h_string : string }.

(** html.Tokenizer: remaining tokens; final Err(): [None] = io.EOF. *)
Record hparser := mkHP { hpending : list htoken; herr : option error }.

(** tokenizer_html.go:20-24 *)
Record hstate := mkHS {
  hs_parser : hparser;
  hs_ttokens : option TokenStream;
  hs_parent : atom
}.

Section WithUnicode.
Variable U : unicode.
Variable scan : oracle.

(** tokenizer_html.go:42-87: after the current text node is exhausted. *)
Definition html_next_token (fuel : nat) (st : hstate) : outcome (result * hstate) :=
  let parser := hs_parser st in
  match hpending parser with
  | [] =>
    match herr parser with
    | None => Ret ((None, None), st)
    | Some e => Ret ((None, Some e), st)
    end
  | ht :: rest =>
    let parser' := mkHP rest (herr parser) in
    (* line 82-87: everything else is punct *)
    let whole := mkToken (h_string ht) true false false in
    match h_type ht with
    | StartTag =>
      let parent' :=
        match h_atom ht with
        | Script | Style => h_atom ht
        | _ => hs_parent st
        end in
      Ret ((Some whole, None), mkHS parser' (hs_ttokens st) parent')
    | HText =>
      match hs_parent st with
      | Script | Style =>
        (* lines 65-70 *)
        Ret ((Some (mkToken (h_string ht) false false false), None),
             mkHS parser' (hs_ttokens st) (hs_parent st))
      | _ =>
        (* lines 72-73 *)
        do (r, tt') <- Next fuel (TokenizeString U scan (h_string ht));
        Ret (r, mkHS parser' (Some tt') (hs_parent st))
      end
    | EndTag =>
      (* lines 76-78: [htoken.DataAtom = 0] assigns to the local copy of the HTML token, after
         its last use for control flow; t.parent is not changed *)
      let ht' := if atom_eqb (h_atom ht) (hs_parent st)
                 then mkH (h_type ht) AtomZero (h_string ht) else ht in
      Ret ((Some (mkToken (h_string ht') true false false), None),
           mkHS parser' (hs_ttokens st) (hs_parent st))
    | SelfClosing | Comment | Doctype =>
      Ret ((Some whole, None), mkHS parser' (hs_ttokens st) (hs_parent st))
    end
  end.

(** tokenizer_html.go:27-88 (htokenizer).next *)
Definition html_next (fuel : nat) (st : hstate) : outcome (result * hstate) :=
  match hs_ttokens st with
  | Some tts =>
    do (r, tts') <- Next fuel tts;
    match r with
    | (_, Some e) => Ret ((None, Some e), mkHS (hs_parser st) (Some tts') (hs_parent st))
    | (Some t, None) => Ret ((Some t, None), mkHS (hs_parser st) (Some tts') (hs_parent st))
    | (None, None) => html_next_token fuel (mkHS (hs_parser st) None (hs_parent st))
    end
  | None => html_next_token fuel st
  end.

(** tokenizer_html.go:13-18 TokenizeHTML; [html.NewTokenizer(r)] is given by its token sequence. *)
Definition TokenizeHTML (p : hparser) : TokenStream :=
  NewTokenStream html_next (mkHS p None AtomZero).

End WithUnicode.
