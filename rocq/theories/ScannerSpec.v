(** * ScannerSpec: vocabulary of C14. *)

From Verif Require Import Base Unicode Token Stream StreamSpec Scanner.

(** The text [d] is cut into the pieces [l] by asking [split] again and again, with all the rest of the text at hand. *)
Inductive cut_into (split : string -> bool -> option string) : string -> list string -> Prop :=
| Cut_end : cut_into split EmptyString []
| Cut_piece p d l : split (p ++ d)%string true = Some p -> cut_into split d l -> cut_into split (p ++ d)%string (p :: l).

(** A split function in the sense of bufio: its token is a non-empty prefix of the data; at the end of the text it
    finds a token if any data are left; before the end it decides only what more data cannot change. *)
Record split_ok (split : string -> bool -> option string) : Prop := {
  split_prefix : forall d eof p, split d eof = Some p -> p <> EmptyString /\ exists d', d = (p ++ d')%string;
  split_total : forall d, d <> EmptyString -> split d true <> None;
  split_stable : forall d p x, split d false = Some p -> split (d ++ x)%string true = Some p
}.

(** Wherever a piece of [d] begins, [max] bytes are enough to see its end. *)
Definition fits (max : nat) (split : string -> bool -> option string) (d : string) : Prop :=
  forall ps qs x y, cut_into split d (ps ++ qs) -> sconcat qs = (x ++ y)%string -> String.length x = max -> split x false <> None.

(** Reader [rd] delivers the data and then [e], in whatever portions, possibly with up to [max_empty_reads] reads in a row
    that deliver nothing.  [P k r d]: in state [r] the data [d] are still to come, and at most [k] empty reads come first. *)
Definition supplies (rd : io_reader) (e : rderr) (P : nat -> RS rd -> string -> Prop) : Prop :=
  forall k r d room, P k r d -> 0 < room ->
  let '(x, er, r') := rread rd r room in
  String.length x <= room /\ exists d', d = (x ++ d')%string /\
  match er with
  | Some e' => e' = e /\ d' = EmptyString
  | None => (x <> EmptyString /\ P max_empty_reads r' d') \/ (x = EmptyString /\ exists k', k = S k' /\ P k' r' d')
  end.

(** The reader in state [r] will deliver [d] and then [e]. *)
Definition delivers_text (rd : io_reader) (r : RS rd) (d : string) (e : rderr) : Prop :=
  exists P, supplies rd e P /\ P max_empty_reads r d.

(** The stream delivers the tokens and then ends, or fails if there was a read error. *)
Definition ends_with (s : TokenStream) (l : list token) (e : rderr) : Prop :=
  match e with EOF => Yields s l | RErr err => Fails s l err end.

(** A reader that delivers the given portions one by one (a portion too long for the buffer in several reads), then [e]. *)
Fixpoint stake (n : nat) (s : string) : string :=
  match n, s with
  | S n', String c s' => String c (stake n' s')
  | _, _ => EmptyString
  end.
Definition portions (e : rderr) : io_reader := {|
  RS := list string;
  rread := fun l room =>
    match l with
    | [] => (EmptyString, Some e, [])
    | c :: l' => if Nat.leb (String.length c) room then (c, None, l') else (stake room c, None, sdrop room c :: l')
    end
|}.
