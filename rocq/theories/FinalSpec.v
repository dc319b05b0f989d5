(** * FinalSpec: what it means that an error is final (C92). *)

From Verif Require Import Base Token Stream StreamSpec Scanner.

(** Every call of Next returns the error [e]. *)
CoInductive Stuck (e : error) (s : TokenStream) : Prop :=
| Stuck_intro o s' : Nexts s (o, Some e) s' -> Stuck e s' -> Stuck e s.

(** The stream delivers [l], then the error [e], and then on every further call [e] again. *)
Definition FailsForGood (s : TokenStream) (l : list token) (e : error) : Prop :=
  exists s', Emits s l (Some e) s' /\ Stuck e s'.

(** Over a source whose error is final, so is the error of the filter. *)
Definition final_errors (F : Filter) : Prop :=
  forall s l e, FailsForGood s l e -> exists o, FailsForGood (F s) o e.

(** The reader itself does not return the error of the scanner. *)
Definition reports_own (rd : io_reader) : Prop :=
  forall r n x er r', rread rd r n = (x, er, r') -> er <> Some (RErr err_too_long).
