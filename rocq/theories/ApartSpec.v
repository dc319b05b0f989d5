(** * ApartSpec: tokens over which no synonym extends (C100). *)

From Verif Require Import Base Utf8 Unicode Token Stream StreamSpec FilterSpec SynSpec.

(** The token is punctuation, or its letters do not occur in any synonym. *)
Definition separates (U : unicode) (ic : bool) (ig : list N) (D : dictionary) (w : token) : Prop :=
  tpunct w = true \/ forall l c u v, In (l, c) D -> spelled U ic ig l <> u ++ letters U ic ig (tvalue w) ++ v.

(** White space of ignored characters. *)
Definition blank (U : unicode) (ic : bool) (ig : list N) (t : token) : Prop :=
  tspace t = true /\ tpunct t = false /\ letters U ic ig (tvalue t) = [].

(** Passages [ps], each but the last followed by a separating token of [ws]. *)
Fixpoint passages (ps : list (list token)) (ws : list token) : list token :=
  match ps, ws with
  | p :: ps', w :: ws' => p ++ w :: passages ps' ws'
  | p :: _, [] => p
  | [], _ => []
  end.
