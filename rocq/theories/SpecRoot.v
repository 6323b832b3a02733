(** Specification for the Merkle roots of C44: what it takes for two lists of hashes to have the same root. *)
From Verif Require Import Base Field Util Env Merkle SpecSearch SpecRun.

(** [a] and [b] are the [i]-th pair of neighbours [t] levels above the leaves *)
Definition neighbours (E : env) (l : list bytes) (t i : nat) (a b : bytes) : Prop :=
  nth_error (Nat.iter t (merkle_level E) l) (2 * i) = Some a /\ nth_error (Nat.iter t (merkle_level E) l) (2 * i + 1) = Some b.

(** a collision of the truncated hash, to be found at the same place of the two trees *)
Definition tree_collision (E : env) (l l' : list bytes) : Prop :=
  exists t i a b a' b', neighbours E l t i a b /\ neighbours E l' t i a' b' /\
    a ++ b <> a' ++ b' /\ firstn HASH_SIZE (blake3 E (a ++ b)) = firstn HASH_SIZE (blake3 E (a' ++ b')).

(** such a collision between the verification strings of some block of reports at the two aggregators *)
Definition block_collision (E : env) (len level : nat) (paths : list (list bool)) (R : list pair) : Prop :=
  exists k j, tree_collision E (block k j (map (vstring E true len level paths) (remaining R)))
                               (block k j (map (vstring E false len level paths) (remaining R))).

(** the same at some level before the last one that the run reaches *)
Definition run_collision (E : env) (len : nat) (thr : Z) (bits : nat) (R : list pair) : Prop :=
  exists m paths R', m < bits - 1 /\ levels_effect E len thr m 0 [[]] R = Ret (paths, R') /\ block_collision E len m paths R'.

(** the roots that the aggregators compare first are the same *)
Definition same_roots (E : env) (len level : nat) (paths : list (list bool)) (R : list pair) : Prop :=
  let n := length (remaining R) in
  merkle_root E (firstn (2 ^ clog2f E n) (map (vstring E true len level paths) (remaining R))) =
  merkle_root E (firstn (2 ^ clog2f E n) (map (vstring E false len level paths) (remaining R))).
