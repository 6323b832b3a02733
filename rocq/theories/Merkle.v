(** rs_merkle 1.2 MerkleTree::<HashAlg>::from_leaves(..).root() as used in src/collect.rs:492-509,
    with HashAlg of src/collect.rs:26-32.  External crate: level by level, neighbouring nodes are
    hashed together, an unpaired last node moves up unchanged; no leaves, no root. *)
From Verif Require Import Base Field Util Env.

(** src/collect.rs:29-31 *)
Definition hash_alg (E : env) (data : bytes) : bytes := firstn HASH_SIZE (blake3 E data).

Fixpoint merkle_level (E : env) (l : list bytes) : list bytes :=
  match l with
  | a :: b :: l' => hash_alg E (a ++ b) :: merkle_level E l'
  | l => l
  end.

Fixpoint merkle_up (fuel : nat) (E : env) (l : list bytes) : option bytes :=
  match l with
  | [] => None
  | [r] => Some r
  | _ => match fuel with O => None | S f => merkle_up f E (merkle_level E l) end
  end.
Definition merkle_root (E : env) (leaves : list bytes) : option bytes := merkle_up (length leaves) E leaves.
