(** Specification vocabulary for C63: how much an aggregator has to hold and how many results a run has. *)
From Verif Require Import Base Field Util Env Prg Vidpf SpecTree Merkle Collect Server Driver SpecVidpf SpecLevel SpecWhh.

(** the number of reports that passed the FLP check *)
Definition accepted (L : list entry) : Z := Z.of_nat (length (filter e_ok L)).
(** a prefix in the subtree below the first bit b (or the root) *)
Definition starts (b : bool) (p : list bool) : bool := match p with [] => true | x :: _ => Bool.eqb x b end.

(** A client that uses the same seed for both keys: the two parts of the joint randomness it derives from
    seed and nonce, and the joint randomness itself. *)
Definition seed_parts (E : env) (seed nonce : bytes) : bytes * bytes :=
  (xof_bytes E seed (repeat 0%N 16) (0%N :: nonce) 16, xof_bytes E seed (repeat 0%N 16) (1%N :: nonce) 16).
Definition seed_joint (E : env) (len : nat) (seed nonce : bytes) : list fld :=
  xof_field E (fst (seed_parts E seed nonce)) (snd (seed_parts E seed nonce)) [] (flp_joint_rand_len E len).
