(** Specification for C84: an aggregator that changes its shares of the final counts. *)
From Verif Require Import Base Field Util Env Prg Vidpf Merkle Collect Server Driver SpecServer SpecWhh Sched System SpecTamper.

(** d p j is added to entry j of the share of string p *)
Definition raised_result (d : list bool -> nat -> fld) (r : result) : result :=
  {| res_path := res_path r; res_value := raised (d (res_path r)) (res_value r) |}.
Definition add_to_results (d : list bool -> nat -> fld) (q : request) (r : response) : response :=
  match q, r with
  | QFinalShares, AFinal rs => AFinal (map (raised_result d) rs)
  | _, _ => r
  end.
(** what honest clients voted for, with x more in each place; the total is at position len *)
Definition padded_result (bs : list (list bool * nat)) (len : nat) (x : list bool -> nat -> Z) (p : list bool) : result :=
  {| res_path := p; res_value := map (fun j => of_Z (tally_bucket bs p j + x p j)) (seq 0 len) ++ [of_Z (tally bs p + x p len)] |}.
(** number of requests for proofs: ceil(n / b) *)
Definition proof_requests (n b : nat) : nat := (n + b - 1) / b.
(** the answers to one of them are equal *)
Definition same_proofs (rr : response * response) : Prop := exists h, rr = (AProofs h, AProofs h).
