(** Specification vocabulary for the last level: which proofs are compared and what is counted. *)
From Verif Require Import Base Field Util Env Prg Vidpf SpecTree Merkle Collect Server Driver SpecCollect SpecServer SpecLevel SpecWhh SpecSearch.

(** component j of the sum, over the remaining reports, of the two shares of the word at path p *)
Definition seen_value (E : env) (len : nat) (R : list pair) (p : list bool) (j : nat) : fld :=
  fsum (map (fun x => fadd (nth j (word_at E (key_of (share_of true x)) len p) (of_Z 0)) (nth j (word_at E (key_of (share_of false x)) len p) (of_Z 0))) (remaining R)).
Definition seen_result (E : env) (len : nat) (R : list pair) (p : list bool) : result :=
  {| res_path := p; res_value := map (seen_value E len R p) (seq 0 (len + 1)) |}.

(** whether the proofs of a report at the children of [paths] agree *)
Definition proofs_agree (E : env) (len : nat) (paths : list (list bool)) (x : pair) : bool :=
  bytes_eqb (proofs_xor E len (children paths) (key_of (share_of true x))) (proofs_xor E len (children paths) (key_of (share_of false x))).

(** how many of the proofs of m remaining reports the driver compares, with n clients and batches of b *)
Definition compared (n m b : nat) : nat := if m =? n then n else m / b * b.
