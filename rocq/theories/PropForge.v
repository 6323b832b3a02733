(** Properties C28 and C29: counters and weights a single client can add. *)
From Verif Require Import Base Field Util Env Prg Vidpf Merkle Collect Server Driver SpecVidpf SpecTree SpecCollect SpecServer SpecLevel SpecWhh SpecSearch SpecForge ForgeFacts ForgeProp ForgeRun
  RefEnv ToyEnv ExRun RefuteExamples WhhExamples ForgeExamples.

(** C28 is false: from the keys of an honest report for the string alpha a client can make keys that add
    any value c l it likes to the counter of the prefix of length l, for all l from 2 on; everything the two
    aggregators compute to check the report is what it is for the honest report *)
Theorem C28_refuted : forall E k0 k1 alpha beta c,
  env_ok E -> honest_keys E k0 k1 alpha beta ->
  exists k0' k1', same_checks E true (length beta) (length alpha) k0 k0' /\ same_checks E false (length beta) (length alpha) k1 k1' /\
    usable (length alpha) k0' /\ usable (length alpha) k1' /\
    forall l, 2 <= l <= length alpha -> value_at E (length beta) k0' k1' (firstn l alpha) = beta ++ [c l].
Proof. exact forge_counter. Qed.
Print Assumptions C28_refuted.

(** counters 1, 200 and 300 at the three levels; nothing elsewhere *)
Example C28_refuted_example : honest_keys tx f_k0 f_k1 f_alpha f_beta /\
  map (f_value f_counters) [[true]; [true; true]; [true; true; false]; [true; false]; [true; true; true]] = [[0; 1; 1]; [0; 1; 200]; [0; 1; 300]; [0; 0; 0]; [0; 0; 0]]%Z.
Proof. exact f_counters_ok. Qed.

(** C29 is false: any value v at the last level, with the honest values at all shorter prefixes *)
Theorem C29_refuted : forall E k0 k1 alpha beta v,
  env_ok E -> honest_keys E k0 k1 alpha beta -> 2 <= length alpha -> length v = length beta + 1 ->
  exists k0' k1', same_checks E true (length beta) (length alpha) k0 k0' /\ same_checks E false (length beta) (length alpha) k1 k1' /\
    usable (length alpha) k0' /\ usable (length alpha) k1' /\
    value_at E (length beta) k0' k1' alpha = v /\
    forall p, p <> [] -> length p <= length alpha -> p <> alpha ->
      value_at E (length beta) k0' k1' p = if is_prefix p alpha then beta ++ [of_Z 1] else repeat (of_Z 0) (length beta + 1).
Proof. exact forge_last. Qed.
Print Assumptions C29_refuted.

(** weights (7, 9) at the last level instead of (0, 1) *)
Example C29_refuted_example : honest_keys tx f_k0 f_k1 f_alpha f_beta /\
  map (f_value f_last) [[true]; [true; true]; [true; true; false]; [true; true; true]] = [[0; 1; 1]; [0; 1; 1]; [7; 9; 1]; [0; 0; 0]]%Z.
Proof. exact f_last_ok. Qed.

(** C28 and C29 in complete runs.  [L] is what the other clients uploaded.  A client whose honest report
    for the string alpha would be accepted can upload keys instead with which the run completes and
    reports alpha, whatever the threshold, with c added to its count and any weights w; it is enough that
    the first bit of alpha reaches the threshold. *)
Theorem C28_C29_refuted_run : forall E len bits vk cfg L n0 k0 p0 j0 n1 k1 p1 j1 alpha beta w c,
  env_ok E -> Forall (good_entry E len bits) L -> Forall (fun e => report_verdict E len vk (e_r0 e) (e_r1 e) (e_ok e)) L ->
  honest_keys E k0 k1 alpha beta -> length alpha = bits -> length beta = len -> 2 <= bits ->
  report_verdict E len vk (RSMastic n0 k0 p0 j0) (RSMastic n1 k1 p1 j1) true ->
  length w = len -> (threshold cfg <= c)%Z -> (c + Z.of_nat (length L) < 2 ^ 64)%Z -> (threshold cfg <= 1 + count L (firstn 1 alpha))%Z ->
  cfg_hist cfg = len -> cfg_bits cfg = Some bits -> 0 < cfg_query_batch cfg ->
  exists k0' k1', forall fuel s0 s1, uploaded true len bits vk (map e_r0 L ++ [RSMastic n0 k0' p0 j0]) s0 -> uploaded false len bits vk (map e_r1 L ++ [RSMastic n1 k1' p1 j1]) s1 ->
    length L + 3 <= fuel ->
    exists t0 t1 rs, run_whh fuel E cfg s0 s1 (length L + 1) = Ret (t0, t1, rs) /\
      In {| res_path := alpha; res_value := map (fun j => fadd (weight L alpha j) (nth j w (of_Z 0))) (seq 0 len) ++ [of_Z (count L alpha + c)] |} rs.
Proof. exact forge_run. Qed.
Print Assumptions C28_C29_refuted_run.

(** three honest clients and a fourth: its honest report, forged counters, forged weights; with threshold 3
    the honest report leads to an empty result, the forged one to its string *)
Example C28_C29_refuted_example : f_result 1 (f_k0, f_k1) = Some [([false; false; true], [0; 1; 1]); ([true; false; true], [1; 1; 2]); ([true; true; false], [0; 1; 1])]%Z /\
  f_result 1 (f_keys f_counters) = Some [([false; false; true], [0; 1; 1]); ([true; false; true], [1; 1; 2]); ([true; true; false], [0; 1; 300])]%Z /\
  f_result 1 (f_keys f_last) = Some [([false; false; true], [0; 1; 1]); ([true; false; true], [1; 1; 2]); ([true; true; false], [7; 9; 1])]%Z /\
  f_result 3 (f_k0, f_k1) = Some [] /\
  f_result 3 (f_keys f_run) = Some [([true; true; false], [7; 9; 100])]%Z.
Proof. exact f_run_ok. Qed.
