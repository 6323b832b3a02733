(** Proofs for C44: the report that the Merkle tree leaves out is not checked. *)
From Verif Require Import Base BaseFacts Field Util UtilFacts Env Prg Vidpf Merkle Collect Server Driver SpecTree SpecCollect SpecServer SpecLevel SpecWhh SpecSearch SpecRoot
  SpecFloat FloatFacts MerkleFacts SearchFacts CollectFacts RefEnv ToyEnv ExRun RefuteExamples WhhExamples SearchExamples CollisionFacts.
From Coq Require Import Lia.

Lemma left_out E len bits level paths R s0 s1 fuel cfg N k :
  env_ok E -> level_start E len bits level paths R s0 s1 -> cfg_hist cfg = len -> 1 <= fuel ->
  length (remaining R) = N + 1 -> clog2f E (N + 1) = k -> 2 ^ k = N -> (forall x, In x (firstn N (remaining R)) -> consistent E len level paths x = true) ->
  exists t0 t1, run_level fuel E cfg s0 s1 (length R) = Ret (t0, t1) /\ after_level E len bits (threshold cfg) R paths t0 t1.
Proof.
  intros Hok Hs Hc Hf Hn Hk Hp Hcon. apply (unnoticed E len bits level paths R s0 s1 fuel cfg Hok Hs Hc Hf).
  - intros Hx. rewrite Hx in Hn. cbn [length] in Hn. lia.
  - unfold same_roots. cbn zeta. rewrite Hn, Hk, Hp, !firstn_map. f_equal. apply map_ext_in. intros x Hx. apply bytes_eqb_eq. exact (Hcon x Hx).
Qed.
Lemma undetected E len bits level paths R s0 s1 fuel cfg :
  env_ok E -> level_start E len bits level paths R s0 s1 -> cfg_hist cfg = len -> 1 <= fuel ->
  length (remaining R) = 2 ^ 21 + 1 -> f32_clog2 (2 ^ 21 + 1) (clog2f E (2 ^ 21 + 1)) ->
  (forall x, In x (firstn (2 ^ 21) (remaining R)) -> consistent E len level paths x = true) ->
  exists t0 t1, run_level fuel E cfg s0 s1 (length R) = Ret (t0, t1) /\ after_level E len bits (threshold cfg) R paths t0 t1.
Proof.
  intros Hok Hs Hc Hf Hn Hk Hcon. pose proof (clog2_fails _ Hk) as Hk'.
  exact (left_out E len bits level paths R s0 s1 fuel cfg (2 ^ 21) 21 Hok Hs Hc Hf Hn Hk' (eq_refl (2 ^ 21)) Hcon).
Qed.
Lemma s_last_left_out : level_start sx 2 3 1 k_paths s_pairs (s_server 0) (s_server 1) /\ length (remaining s_pairs) = 4 + 1 /\ clog2f sx (4 + 1) = 2 /\
  (forall x, In x (firstn 4 (remaining s_pairs)) -> consistent sx 2 1 k_paths x = true) /\ map (consistent sx 2 1 k_paths) (remaining s_pairs) = [true; true; true; true; false].
Proof.
  split; [apply s_last_ok|]. split; [apply Nat.eqb_eq; vm_cast_no_check (eq_refl true)|]. split; [reflexivity|]. split.
  - assert (H : forallb (consistent sx 2 1 k_paths) (firstn 4 (remaining s_pairs)) = true) by (vm_cast_no_check (eq_refl true)).
    intros x Hx. rewrite forallb_forall in H. exact (H x Hx).
  - apply bools_eqb_ok. vm_cast_no_check (eq_refl true).
Qed.
