(** * Tokenizer: model of /repo/tokenizer.go

    The word scanner ([words.NewScanner], package uax29) is not part of /repo.  It enters as an
    oracle [scan]: from a reader it makes a scanner, i.e. the list of texts that successive
    Scan() calls deliver and the final Err().  Scanner.v models the standard-library
    scanner loop behind it. *)

From Verif Require Import Base Utf8 Unicode Token Stream.

(** An [io.Reader] as seen by its consumer: the bytes it delivers before it ends, and how it
    ends ([None] = io.EOF, [Some e] = error e). *)
Record reader := mkReader { rdata : string; rerr : option error }.

(** [iterators.Scanner]: pending texts and Err(). *)
Record scanner := mkScanner { pending : list string; serr : option error }.

(** [words.NewScanner]. *)
Definition oracle := reader -> scanner.

(** [sc.Scan()] / [sc.Text()]: the next text, if any. *)
Definition sc_Scan (sc : scanner) : option (string * scanner) :=
  match pending sc with
  | [] => None
  | x :: r => Some (x, mkScanner r (serr sc))
  end.

Section WithUnicode.
Variable U : unicode.
Variable scan : oracle.

(** tokenizer.go:39-49 (tokenizer).next *)
Definition tokenizer_next (fuel : nat) (sc : scanner) : outcome (result * scanner) :=
  match sc_Scan sc with
  | Some (x, sc') => Ret ((NewToken U x false, None), sc')
  | None =>
    match serr sc with
    | Some e => Ret ((None, Some e), sc)
    | None => Ret ((None, None), sc)
    end
  end.

(** tokenizer.go:16-19 Tokenize (newTokenizer: tokenizer.go:32-36) *)
Definition Tokenize (r : reader) : TokenStream :=
  NewTokenStream tokenizer_next (scan r).

(** tokenizer.go:24-26 TokenizeString: [strings.NewReader(s)] never fails. *)
Definition TokenizeString (s : string) : TokenStream := Tokenize (mkReader s None).

End WithUnicode.

(** Contract of the scanner oracle: every piece is non-empty; the pieces concatenate to a
    prefix of the data, and to all of it when the scanner ends without error; a reader
    error is reported. *)
Record scanner_ok (scan : oracle) : Prop := {
  scan_nonempty : forall r x, In x (pending (scan r)) -> x <> EmptyString;
  scan_prefix : forall r, exists rest, rdata r = (sconcat (pending (scan r)) ++ rest)%string;
  scan_all : forall r, serr (scan r) = None -> sconcat (pending (scan r)) = rdata r;
  scan_err : forall r e, rerr r = Some e -> serr (scan r) <> None
}.

(** The ideal scanner for a segmentation function: no token-size limit. *)
Definition scan_of (seg : string -> list string) : oracle :=
  fun r => mkScanner (seg (rdata r)) (rerr r).

Definition seg_ok (seg : string -> list string) : Prop :=
  forall s, sconcat (seg s) = s /\ (forall x, In x (seg s) -> x <> EmptyString).
