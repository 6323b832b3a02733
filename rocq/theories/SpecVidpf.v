(** Specification vocabulary for the VIDPF. *)
From Verif Require Import Base Field.

(** p is a prefix of a *)
Fixpoint is_prefix (p a : list bool) : bool :=
  match p, a with
  | [], _ => true
  | _ :: _, [] => false
  | x :: p', y :: a' => Bool.eqb x y && is_prefix p' a'
  end.

(** the point function with a counter: beta followed by 1 on the path to alpha, all zero elsewhere *)
Definition point_value (alpha : list bool) (beta : list fld) (p : list bool) : list fld :=
  if is_prefix p alpha then beta ++ [of_Z 1] else repeat (of_Z 0) (length beta + 1).

(** two additive share vectors of the vector v *)
Definition shares_of (w0 w1 v : list fld) : Prop :=
  length w0 = length v /\ length w1 = length v /\
  forall i a b, nth_error w0 i = Some a -> nth_error w1 i = Some b -> nth_error v i = Some (fadd a b).

(** q is a proper prefix of p *)
Definition proper_prefix (q p : list bool) : Prop := exists s, s <> [] /\ p = q ++ s.
