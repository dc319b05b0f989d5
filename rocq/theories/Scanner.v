(** * Scanner: the buffered scanner under Tokenize, reading from an io.Reader in arbitrary chunks.

    /repo/tokenizer.go:28-49 reads through [words.NewScanner], a [bufio.Scanner] with the word SplitFunc.  bufio is not
    part of /repo; this is a model of its [Scan] (Go standard library, bufio/scan.go), needed for C14.  Simplified: the
    split function always advances by the length of its token and reports no errors (as the word SplitFunc does), so
    the counting of empty tokens is left out; the bytes of the buffer outside [start, end) are not represented. *)

From Verif Require Import Base Utf8 Unicode Token Stream.

(** What Read can report besides data. *)
Inductive rderr := EOF | RErr (e : error).

(** An io.Reader: its state, and Read with a buffer of the given length. *)
Record io_reader := mkIoReader {
  RS : Type;
  rread : RS -> nat -> string * option rderr * RS
}.

Definition err_too_long : error := "bufio.Scanner: token too long"%string.
Definition err_no_progress : error := "multiple Read calls return no data or error"%string.
Definition err_bad_count : error := "bufio.Scanner: Read returned impossible count"%string.
Definition max_empty_reads : nat := 100.

(** bytes [n:] of a string *)
Fixpoint sdrop (n : nat) (s : string) : string :=
  match n, s with
  | S n', String _ s' => sdrop n' s'
  | _, _ => s
  end.

Section Scanner.
(** startBufSize and maxTokenSize: 4096 and 65536 *)
Variable start_size max_size : nat.
(** SplitFunc(data, atEOF): the token, or [None]: more data needed *)
Variable split : string -> bool -> option string.
Variable rd : io_reader.

(** [pend] is buf[start:end]; [blen] is len(buf). *)
Record buffered := mkB { pend : string; start : nat; blen : nat; berr : option rderr; src : RS rd }.

(** bufio.NewScanner *)
Definition NewScanner (r : RS rd) : buffered := mkB EmptyString 0 0 None r.

(** The read loop; [loops] is how often it may still go round. *)
Fixpoint read_loop (loops room : nat) (r : RS rd) : string * option rderr * RS rd :=
  let '(x, er, r') := rread rd r room in
  if Nat.ltb room (String.length x) then (EmptyString, Some (RErr err_bad_count), r')
  else match er with
  | Some e => (x, Some e, r')
  | None =>
    if Nat.ltb 0 (String.length x) then (x, None, r')
    else match loops with
    | O => (x, Some (RErr err_no_progress), r')
    | S l => read_loop l room r'
    end
  end.

(** (Scanner).Scan: the token, or [None] for false *)
Fixpoint ScanB (fuel : nat) (b : buffered) : outcome (option string * buffered) :=
  match fuel with
  | O => NoFuel
  | S fuel' =>
    let at_eof := match berr b with Some _ => true | None => false end in
    let found := if Nat.ltb 0 (String.length (pend b)) || at_eof then split (pend b) at_eof else None in
    match found with
    | Some p => Ret (Some p, mkB (sdrop (String.length p) (pend b)) (start b + String.length p) (blen b) (berr b) (src b))
    | None =>
      match berr b with
      | Some _ => Ret (None, mkB EmptyString 0 (blen b) (berr b) (src b))
      | None =>
        let len := String.length (pend b) in
        let start1 :=
          if Nat.ltb 0 (start b) && (Nat.eqb (start b + len) (blen b) || Nat.ltb (blen b / 2) (start b)) then 0 else start b in
        let full := Nat.eqb (start1 + len) (blen b) in
        if full && Nat.leb max_size (blen b) then
          Ret (None, mkB (pend b) start1 (blen b) (Some (RErr err_too_long)) (src b))
        else
          let start2 := if full then 0 else start1 in
          let blen2 := if full then Nat.min max_size (if Nat.eqb (blen b) 0 then start_size else blen b * 2) else blen b in
          let '(x, er, r') := read_loop max_empty_reads (blen2 - (start2 + len)) (src b) in
          ScanB fuel' (mkB (pend b ++ x)%string start2 blen2 er r')
      end
    end
  end.

(** (Scanner).Err *)
Definition ErrB (b : buffered) : option error := match berr b with Some (RErr e) => Some e | _ => None end.

Variable U : unicode.

(** tokenizer.go:39-49 next *)
Definition btokenizer_next (fuel : nat) (b : buffered) : outcome (result * buffered) :=
  do (x, b') <- ScanB fuel b;
  match x with
  | Some text => Ret ((NewToken U text false, None), b')
  | None =>
    match ErrB b' with
    | Some e => Ret ((None, Some e), b')
    | None => Ret ((None, None), b')
    end
  end.

(** tokenizer.go:16-19,32-36 Tokenize *)
Definition TokenizeFrom (r : RS rd) : TokenStream := NewTokenStream btokenizer_next (NewScanner r).
End Scanner.

Arguments pend {rd}.
Arguments start {rd}.
Arguments blen {rd}.
Arguments berr {rd}.
Arguments src {rd}.
Arguments mkB {rd}.
