(** * BufReader: bufio.Reader, through which the command line tool reads its input.

    /repo/cmd/jargon/main.go:225-258 wraps the input in a bufio.Reader of some size.  bufio is not part of /repo; this is a
    model of its method Read (Go standard library, bufio/bufio.go).  A reader that claims to have read more than there is
    room for (bufio then panics) is not represented. *)

From Verif Require Import Base Token Stream Scanner Cli.

(** [br_buf] is buf[r:w]. *)
Record breader (rd : io_reader) := mkBR { br_buf : string; br_err : option rderr; br_src : RS rd }.
Arguments mkBR {rd}.
Arguments br_buf {rd}.
Arguments br_err {rd}.
Arguments br_src {rd}.

Section Reader.
(** len(buf) *)
Variable size : nat.
Variable rd : io_reader.

(** (Reader).Read with len(p) = [room] *)
Definition br_Read (b : breader rd) (room : nat) : string * option rderr * breader rd :=
  match br_buf b with
  | EmptyString =>
    match br_err b with
    | Some e => (EmptyString, Some e, mkBR EmptyString None (br_src b))
    | None =>
      if Nat.eqb room 0 then (EmptyString, None, b)
      else if Nat.leb size room then
        let '(x, er, r') := rread rd (br_src b) room in (x, er, mkBR EmptyString None r')
      else
        let '(x, er, r') := rread rd (br_src b) size in
        if Nat.eqb (String.length x) 0 then (EmptyString, er, mkBR EmptyString None r')
        else (sfirst room x, None, mkBR (sdrop room x) er r')
    end
  | x => (sfirst room x, None, mkBR (sdrop room x) (br_err b) (br_src b))
  end.

Definition bufio_Reader : io_reader := mkIoReader (breader rd) br_Read.

(** bufio.NewReaderSize *)
Definition br_New (r : RS rd) : breader rd := mkBR EmptyString None r.
End Reader.
