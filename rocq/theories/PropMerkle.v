(** Property C44 (src/collect.rs:485-497).  The axioms printed are those of Coq's real numbers. *)
From Verif Require Import Base Field Util Env Prg Vidpf Merkle Collect Server Driver SpecFloat FloatFacts MerkleFacts SpecTree SpecServer SpecLevel SpecWhh SpecSearch SpecRoot ToyEnv RootFacts
  SearchExamples CollisionFacts UndetectedFacts.

(** C44: up to 2^21 reports the float computation is exact ... *)
Theorem C44_exact : forall n k, 1 <= n <= 2 ^ 21 -> f32_clog2 n k -> n <= 2 ^ k /\ (k = 0 \/ 2 ^ (k - 1) < n).
Proof. exact clog2_exact. Qed.
Print Assumptions C44_exact.

(** ... and the root is that of all the hashes *)
Theorem C44_covers : forall E hs m l, 1 <= length hs <= 2 ^ 21 -> f32_clog2 (length hs) (clog2f E (length hs)) ->
  merkle_part E hs 1 m l = let! root := unwrap (merkle_root E hs) in Ret ([root], [0]).
Proof. exact merkle_small. Qed.
Print Assumptions C44_covers.

(** a root binds all the hashes below it: lists of equally many hashes with the same root are equal, or the truncated
    hash collides at some place of their two trees *)
Theorem C44_binding : forall E l l', env_ok E -> length l = length l' ->
  Forall (fun h => length h = HASH_SIZE) l -> Forall (fun h => length h = HASH_SIZE) l' ->
  merkle_root E l = merkle_root E l' -> l = l' \/ tree_collision E l l'.
Proof. exact (fun E l l' Hok => root_binding E Hok l l'). Qed.
Print Assumptions C44_binding.

(** the equal length is needed: leaves and inner nodes are hashed alike, so three leaves have the root of two others *)
Theorem C44_lengths : forall E a b c, merkle_root E [a; b; c] = merkle_root E [firstn HASH_SIZE (blake3 E (a ++ b)); c].
Proof. exact roots_of_two_lengths. Qed.
Print Assumptions C44_lengths.

(** the same of the blocks whose roots the search for bad reports compares *)
Theorem C44_blocks : forall E h0 h1 k j, env_ok E -> length h0 = length h1 ->
  Forall (fun h => length h = HASH_SIZE) h0 -> Forall (fun h => length h = HASH_SIZE) h1 ->
  merkle_root E (block k j h0) = merkle_root E (block k j h1) ->
  block k j h0 = block k j h1 \/ tree_collision E (block k j h0) (block k j h1).
Proof. exact (fun E h0 h1 k j Hok => blocks_binding E Hok h0 h1 k j). Qed.
Print Assumptions C44_blocks.

(** with one report more the computation yields 21 and the last hash is left out *)
Theorem C44_off_by_one : forall k, f32_clog2 (2 ^ 21 + 1) k -> k = 21.
Proof. exact clog2_fails. Qed.
Print Assumptions C44_off_by_one.

Theorem C44_refuted : forall E hs h h' m l, length hs = 2 ^ 21 -> f32_clog2 (2 ^ 21 + 1) (clog2f E (length hs + 1)) ->
  merkle_part E (hs ++ [h]) 1 m l = merkle_part E (hs ++ [h']) 1 m l.
Proof. exact merkle_large. Qed.
Print Assumptions C44_refuted.

(** So with 2^21 + 1 remaining reports a level does not notice that the last one is inconsistent, and counts it ... *)
Theorem C44_undetected : forall E len bits level paths R s0 s1 fuel cfg,
  env_ok E -> level_start E len bits level paths R s0 s1 -> cfg_hist cfg = len -> 1 <= fuel ->
  length (remaining R) = 2 ^ 21 + 1 -> f32_clog2 (2 ^ 21 + 1) (clog2f E (2 ^ 21 + 1)) ->
  (forall x, In x (firstn (2 ^ 21) (remaining R)) -> consistent E len level paths x = true) ->
  exists t0 t1, run_level fuel E cfg s0 s1 (length R) = Ret (t0, t1) /\ after_level E len bits (threshold cfg) R paths t0 t1.
Proof. exact undetected. Qed.
Print Assumptions C44_undetected.

(** ... as at any other number of reports at which the logarithm is one too small *)
Theorem C44_left_out : forall E len bits level paths R s0 s1 fuel cfg n k,
  env_ok E -> level_start E len bits level paths R s0 s1 -> cfg_hist cfg = len -> 1 <= fuel ->
  length (remaining R) = n + 1 -> clog2f E (n + 1) = k -> 2 ^ k = n -> (forall x, In x (firstn n (remaining R)) -> consistent E len level paths x = true) ->
  exists t0 t1, run_level fuel E cfg s0 s1 (length R) = Ret (t0, t1) /\ after_level E len bits (threshold cfg) R paths t0 t1.
Proof. exact left_out. Qed.
Print Assumptions C44_left_out.

(** four consistent reports and an inconsistent one, with such a logarithm *)
Example C44_left_out_example : level_start sx 2 3 1 k_paths s_pairs (s_server 0) (s_server 1) /\ length (remaining s_pairs) = 4 + 1 /\ clog2f sx (4 + 1) = 2 /\
  (forall x, In x (firstn 4 (remaining s_pairs)) -> consistent sx 2 1 k_paths x = true) /\ map (consistent sx 2 1 k_paths) (remaining s_pairs) = [true; true; true; true; false].
Proof. exact s_last_left_out. Qed.

(** both float computations do have a result *)
Example C44_example_small : f32_clog2 8 3.
Proof. exact clog2_example. Qed.
Example C44_example_large : f32_clog2 (2 ^ 21 + 1) 21.
Proof. exact clog2_fails_exists. Qed.

(** three hashes of which the last, unpaired, is changed: the root changes *)
Example C44_example_root : let E := toy_env true true in let l := map rt_hash [1; 2; 3]%N in let l' := map rt_hash [1; 2; 4]%N in
  env_ok E /\ length l = length l' /\ Forall (fun h => length h = HASH_SIZE) l /\ Forall (fun h => length h = HASH_SIZE) l' /\
  (exists r r', merkle_root E l = Some r /\ merkle_root E l' = Some r' /\ r <> r').
Proof. exact rt_example. Qed.
