(** * EndSpec: line ends of Windows and of Unix (C105). *)

From Verif Require Import Base Token LineSpec.

(** The text with CR LF replaced by LF. *)
Fixpoint unix_ends (s : string) : string :=
  match s with
  | String a r =>
    match r with
    | String b r' => if Ascii.eqb a (ascii_of_nat 13) && Ascii.eqb b (ascii_of_nat 10) then String b (unix_ends r') else String a (unix_ends r)
    | EmptyString => String a EmptyString
    end
  | EmptyString => EmptyString
  end.

(** No carriage return stands before CR LF. *)
Definition no_stray_return (s : string) : Prop := forall a b, s <> (a ++ CR ++ CR ++ LF ++ b)%string.

(** Equal, but that the token of CR LF corresponds to that of LF. *)
Definition same_but_end (t t' : token) : Prop := t' = t \/ (t = line_token (CR ++ LF) /\ t' = line_token LF).
