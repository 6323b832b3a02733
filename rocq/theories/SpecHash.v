(** Specification vocabulary for the hash inputs of the evaluation proofs and for keys that differ only
    in the two bits of the root seed the generator discards. *)
From Verif Require Import Base Field Util Env Prg Vidpf.
From Coq Require Import Ascii.

(** the string "0110..." of a bit string, as ASCII characters *)
Definition digit (b : bool) : N := N_of_ascii (if b then "1"%char else "0"%char).

(** the 16-byte proof after one more step: [old] proof so far, [node] what the node itself contributes *)
Definition next_proof (E : env) (old node : bytes) : bytes := xor_vec (firstn 16 (blake3 E (xor_vec old node))) old.

(** the same 16-byte string apart from the two lowest bits of the first byte *)
Definition nearly_equal (a b : bytes) : Prop :=
  tl a = tl b /\ length a = length b /\ (hd 0 a / 4 = hd 0 b / 4)%N.
(** the same key apart from these two bits of its root seed *)
Definition nearly_equal_keys (k k' : vidpf_key) : Prop :=
  key_idx k = key_idx k' /\ cor_words k = cor_words k' /\ cs k = cs k' /\ nearly_equal (root_seed k) (root_seed k') /\
  Forall (fun b => (b < 256)%N) (root_seed k) /\ Forall (fun b => (b < 256)%N) (root_seed k').
