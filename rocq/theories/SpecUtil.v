(** Specification vocabulary for the helpers of src/lib.rs. *)
From Verif Require Import Base.

(** value of a little-endian bit string *)
Fixpoint bits_value (l : list bool) : N :=
  match l with [] => 0 | b :: l' => (if b then 1 else 0) + 2 * bits_value l' end%N.
