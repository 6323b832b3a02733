(** Concrete case for C60: a report of the cheap environment with given draws, one of them above p. *)
From Verif Require Import Base Field Util Env Prg Vidpf Merkle Collect Driver ToyEnv ExRun SpecHide.
Definition hide_draws (n : nat) : list Z := map (fun i => if Nat.even i then (P + 5 + Z.of_nat i)%Z else (7 * Z.of_nat i)%Z) (seq 0 n).
(** the report, its proof's length, and whether its two shares are as the draws say and add up to one proof *)
Definition hide_case : bool :=
  match gen_report (toy_env true true) 2 (drawing [] (ex_client 0 [true; false; true] 1)) with
  | Ret (PRMastic _ _ (p0, proof) _ _) =>
      let us := hide_draws (length proof) in
      match gen_report (toy_env true true) 2 (drawing us (ex_client 0 [true; false; true] 1)) with
      | Ret (PRMastic _ _ (q0, q1) _ _) =>
          Nat.ltb 0 (length proof) && same p0 (repeat fzero (length proof)) && same q0 (share0 us) && same q1 (share1 proof us) && negb (same q1 proof)
      | _ => false
      end
  | _ => false
  end.
(** two proofs that differ in one of two entries *)
Definition hide_differ : bool := Nat.eqb (differ [of_Z 1; of_Z 2] [of_Z 1; of_Z 9]) 1.
