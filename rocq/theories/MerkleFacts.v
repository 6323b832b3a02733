(** Chunks and Merkle roots of src/collect.rs:482-511. *)
From Verif Require Import Base BaseFacts Field Util Env Merkle Collect SpecFloat FloatFacts.

Lemma chunks_first {A} n (l : list A) : 0 < n -> l <> [] -> exists rest, chunks n l = Ret (firstn n l :: rest).
Proof. intros Hn Hl. unfold chunks. rewrite (proj2 (Nat.eqb_neq _ _)) by lia. destruct l as [|x l]; [congruence|]. cbn [length chunks_fuel]. eauto. Qed.
Lemma pow2_ge1 k : 1 <= 2 ^ k.
Proof. pose proof (Nat.pow_nonzero 2 k). lia. Qed.
(** with one chunk the root is that of the first num_leaves hashes *)
Lemma merkle_one E hs m l : hs <> [] ->
  merkle_part E hs 1 m l = let! root := unwrap (merkle_root E (firstn (2 ^ clog2f E (length hs)) hs)) in Ret ([root], [0]).
Proof.
  intros Hne. unfold merkle_part. assert (Hs : (if l then 1 else 1) = 1) by (destruct l; reflexivity). rewrite Hs. cbn [Nat.eqb]. rewrite Nat.div_1_r.
  destruct (chunks_first (2 ^ clog2f E (length hs)) hs) as [rest Hr]; [pose proof (pow2_ge1 (clog2f E (length hs))); lia|exact Hne|]. rewrite Hr. reflexivity.
Qed.
Lemma merkle_covers E hs m l : hs <> [] -> length hs <= 2 ^ clog2f E (length hs) ->
  merkle_part E hs 1 m l = let! root := unwrap (merkle_root E hs) in Ret ([root], [0]).
Proof. intros Hne Hl. rewrite merkle_one by exact Hne. rewrite firstn_all2 by exact Hl. reflexivity. Qed.
Lemma merkle_misses E hs h h' m l : hs <> [] -> 2 ^ clog2f E (length hs + 1) <= length hs -> merkle_part E (hs ++ [h]) 1 m l = merkle_part E (hs ++ [h']) 1 m l.
Proof.
  intros Hne Hl. rewrite !merkle_one by (destruct hs; discriminate). rewrite !app_length. cbn [length]. rewrite !firstn_app.
  rewrite !(proj2 (Nat.sub_0_le _ _)) by exact Hl. reflexivity.
Qed.
(** up to 2^21 accepted reports: the root covers them all *)
Lemma merkle_small E hs m l : 1 <= length hs <= 2 ^ 21 -> f32_clog2 (length hs) (clog2f E (length hs)) ->
  merkle_part E hs 1 m l = let! root := unwrap (merkle_root E hs) in Ret ([root], [0]).
Proof. intros Hl Hf. apply merkle_covers; [intros ->; destruct Hl as [Hl _]; inversion Hl|]. apply clog2_exact in Hf; [|exact Hl]. apply Hf. Qed.
(** with 2^21 + 1 of them the last one does not matter *)
Lemma merkle_large E hs h h' m l : length hs = 2 ^ 21 -> f32_clog2 (2 ^ 21 + 1) (clog2f E (length hs + 1)) ->
  merkle_part E (hs ++ [h]) 1 m l = merkle_part E (hs ++ [h']) 1 m l.
Proof.
  intros Hl Hf. apply clog2_fails in Hf. apply merkle_misses.
  - intros ->. apply (Nat.pow_nonzero 2 21); [discriminate|]. symmetry. exact Hl.
  - rewrite Hf, Hl. apply Nat.le_refl.
Qed.
