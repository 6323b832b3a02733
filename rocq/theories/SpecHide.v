(** Property C60: what the proof share sent to an aggregator says about the proof.
    The driver draws one u128 per entry of the proof (src/bin/driver.rs:174-178). *)
From Verif Require Import Base Field Vidpf Collect Driver.
Local Open Scope Z_scope.

(** number of values of a u128 *)
Definition draws : Z := 2 ^ 128.
(** number of field elements that two different u128 values are reduced to *)
Definition doubled : Z := 2 ^ 128 - P.

(** the same as a natural number *)
Definition ndraws : nat := Z.to_nat draws.

(** f 0 + ... + f (n - 1) *)
Fixpoint sum_upto (n : nat) (f : Z -> Z) : Z :=
  match n with O => 0 | S m => sum_upto m f + f (Z.of_nat m) end.

(** how many of the lists of k u128 values pass the test *)
Fixpoint tally (k : nat) (test : list Z -> bool) : Z :=
  match k with
  | O => if test [] then 1 else 0
  | S k' => sum_upto ndraws (fun u => tally k' (fun us => test (u :: us)))
  end.

(** a client whose u128 draws are the given ones *)
Definition drawing (us : list Z) (cl : client) : client :=
  {| cl_nonce := cl_nonce cl; cl_bucket := cl_bucket cl; cl_alpha := cl_alpha cl; cl_seed0 := cl_seed0 cl;
     cl_seed1 := cl_seed1 cl; cl_prove_rand := cl_prove_rand cl; cl_proof_rand := fun i => of_Z (nth i us 0) |}.

(** the two shares of a vector, entry by entry *)
Fixpoint share0 (us : list Z) : list fld := match us with [] => [] | u :: us' => of_Z u :: share0 us' end.
Fixpoint share1 (proof : list fld) (us : list Z) : list fld :=
  match proof, us with p :: proof', u :: us' => of_Z (fval p - u) :: share1 proof' us' | _, _ => [] end.

(** number of entries two vectors differ in *)
Fixpoint differ (a b : list fld) : nat :=
  match a, b with x :: a', y :: b' => ((if feqb x y then 0 else 1) + differ a' b')%nat | _, _ => 0%nat end.

(** equality of two vectors as a boolean *)
Fixpoint same (a b : list fld) : bool :=
  match a, b with [], [] => true | x :: a', y :: b' => feqb x y && same a' b' | _, _ => false end.
