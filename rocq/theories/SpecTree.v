(** Specification vocabulary for eval_tree: the word share and the evaluation proof a key yields at a
    path when it is evaluated directly, bit by bit, with no tree. *)
From Verif Require Import Base Field Util Env Prg Vidpf.

Definition share_at (E : env) (k : vidpf_key) (len : nat) (path : list bool) : outcome (list fld * bytes) :=
  let! '(st, _, out) := eval_loop E k (eval_init k) [] path len in
  let! w := unwrap (nth_error out (length path - 1)) in
  Ret (w, es_proof st).

(** what the Rust types guarantee about any key, honest or not: 16-byte seeds and hashes *)
Definition key_typed (k : vidpf_key) : Prop :=
  length (root_seed k) = 16 /\ (forall cw, In cw (cor_words k) -> length (cw_seed cw) = 16) /\
  (forall c, In c (cs k) -> length c = 16).
