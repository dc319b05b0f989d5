(** * QueueSpec: what first-in-first-out queues are, for C45 - C47. *)

From Coq Require Import ZArith.
From Verif Require Import Base SliceQueue.

Section Spec.
Context {A : Type}.

(** Queues are lists.  [None]: the program panics. *)
Definition replace (qs : list (list A)) (i : nat) (l : list A) : list (list A) := firstn i qs ++ [l] ++ skipn (S i) qs.

Definition fifo (o : op A) (qs : list (list A)) : option (answer A * list (list A)) :=
  match o with
  | ONew xs => Some (Nothing, qs ++ [xs])
  | OLen i => match nth_error qs i with Some l => Some (IsLen (length l), qs) | None => None end
  | OAny i => match nth_error qs i with Some [] => Some (IsAny false, qs) | Some _ => Some (IsAny true, qs) | None => None end
  | OPop i => match nth_error qs i with Some (t :: l) => Some (IsToken t, replace qs i l) | _ => None end
  | ODrop i n =>
    match nth_error qs i with
    | Some l => if (0 <=? n)%Z && (n <=? Z.of_nat (length l))%Z then Some (Nothing, replace qs i (skipn (Z.to_nat n) l)) else None
    | None => None
    end
  | OPush i xs _ => match nth_error qs i with Some l => Some (Nothing, replace qs i (l ++ xs)) | None => None end
  | OClear i => match nth_error qs i with Some _ => Some (Nothing, replace qs i []) | None => None end
  | OPopTo i dst _ =>
    match nth_error qs i with
    | Some (t :: l) =>
      let qs1 := replace qs i l in
      match nth_error qs1 dst with Some d => Some (Nothing, replace qs1 dst (d ++ [t])) | None => None end
    | _ => None
    end
  | OFlushTo i dst _ =>
    match nth_error qs i, nth_error qs dst with
    | Some l, Some d => Some (Nothing, replace (replace qs dst (d ++ l)) i [])
    | _, _ => None
    end
  end.

Fixpoint fifo_all (os : list (op A)) (qs : list (list A)) : option (list (answer A) * list (list A)) :=
  match os with
  | [] => Some ([], qs)
  | o :: os' =>
    match fifo o qs with
    | Some (a, qs1) => match fifo_all os' qs1 with Some (as_, qs2) => Some (a :: as_, qs2) | None => None end
    | None => None
    end
  end.

(** A slice uses array [a]. *)
Definition uses (s : slice) (a : nat) : Prop := s_cap s <> 0 /\ s_arr s = a.

(** A slice as Go can have it. *)
Definition well_formed (h : heap A) (s : slice) : Prop :=
  s_len s <= s_cap s /\ (s_cap s = 0 \/ (s_arr s < length h /\ s_off s + s_cap s <= length (cells h (s_arr s)))).

(** No two queues use the same array. *)
Definition separate (m : mem A) : Prop :=
  (forall i s, nth_error (queues m) i = Some s -> well_formed (heap_ m) s) /\
  (forall i j s s' a, nth_error (queues m) i = Some s -> nth_error (queues m) j = Some s' -> uses s a -> uses s' a -> i = j).

(** Nothing is taken out of queue [i]. *)
Definition keeps (i : nat) (o : op A) : Prop :=
  match o with
  | OPop j | ODrop j _ | OClear j | OPopTo j _ _ | OFlushTo j _ _ => j <> i
  | _ => True
  end.
End Spec.

(** [None]: a panic. *)
Definition opt {B} (o : outcome B) : option B := match o with Ret b => Some b | _ => None end.
