(** Property C63 (src/bin/driver.rs run_level, src/collect.rs tree_prune): the size of the frontier and of
    the result is bounded by the number of accepted reports divided by the threshold. *)
From Verif Require Import Base Field Util Env Prg Vidpf Merkle Collect Server Driver SpecVidpf SpecTree SpecLevel SpecWhh SpecForge SpecOne SpecFlood
  ToyEnv ExRun WhhExamples ForgeExamples FloodRun FloodExamples.

(** If all accepted reports are honest: after k levels both aggregators hold exactly the heavy prefixes of k
    bits, and there are at most (number of accepted reports) / threshold of them. *)
Theorem C63_frontier : forall E len bits L vk fuel cfg s0 s1 k,
  env_ok E -> Forall (good_entry E len bits) L -> (Z.of_nat (length L) < 2 ^ 64)%Z -> cfg_hist cfg = len -> 0 < cfg_query_batch cfg -> 1 <= k < bits -> length L <= fuel ->
  uploaded true len bits vk (map e_r0 L) s0 -> uploaded false len bits vk (map e_r1 L) s1 ->
  existsb e_ok L = true -> Forall (fun e => report_verdict E len vk (e_r0 e) (e_r1 e) (e_ok e)) L ->
  (forall l, 1 <= l < k -> exists p, length p = l /\ heavy (threshold cfg) L p = true) ->
  exists i0 i1 t0 t1, call2_done E s0 s1 QTreeInit QTreeInit = Ret (i0, i1) /\ levels_loop fuel E cfg i0 i1 (length L) true k = Ret (t0, t1) /\
    map tn_path (c_frontier (s_coll t0)) = filter (heavy (threshold cfg) L) (all_paths k) /\ map tn_path (c_frontier (s_coll t1)) = filter (heavy (threshold cfg) L) (all_paths k) /\
    (Z.of_nat (length (c_frontier (s_coll t0))) * threshold cfg <= accepted L)%Z /\ (Z.of_nat (length (c_frontier (s_coll t1))) * threshold cfg <= accepted L)%Z.
Proof. exact frontier_bound. Qed.
Print Assumptions C63_frontier.

(** and the same for the result of a run that ends, however it went *)
Theorem C63_result : forall E len bits L vk fuel cfg s0 s1 t0 t1 rs,
  env_ok E -> Forall (good_entry E len bits) L -> (Z.of_nat (length L) < 2 ^ 64)%Z ->
  cfg_hist cfg = len -> cfg_bits cfg = Some bits -> 0 < cfg_query_batch cfg -> 1 <= bits -> length L <= fuel ->
  uploaded true len bits vk (map e_r0 L) s0 -> uploaded false len bits vk (map e_r1 L) s1 ->
  (2 <= bits -> existsb e_ok L = true /\ Forall (fun e => report_verdict E len vk (e_r0 e) (e_r1 e) (e_ok e)) L) ->
  (bits = 1 -> forallb e_ok L = true) ->
  run_whh fuel E cfg s0 s1 (length L) = Ret (t0, t1, rs) -> (Z.of_nat (length rs) * threshold cfg <= accepted L)%Z.
Proof. exact result_bound. Qed.
Print Assumptions C63_result.

(** C63 is false with one dishonest report.  Whatever honest reports there are, if the threshold is at most
    one above the number of honest strings with first bit b, then one client can make a report that passes
    every check and with which every string that starts with b is a result: 2^(bits-1) of them.  The two keys
    have the same public part.  [proof] is the proof the honest client code makes for weights [beta]. *)
Theorem C63_refuted : forall E len bits vk cfg L b beta c seed nonce prove_rand proof p0 p1,
  env_ok E -> Forall (good_entry E len bits) L -> Forall (fun e => report_verdict E len vk (e_r0 e) (e_r1 e) (e_ok e)) L ->
  length beta = len -> 2 <= bits -> length seed = 16 ->
  flp_prove E len beta prove_rand (seed_joint E len seed nonce) = Some proof -> shares_of p0 p1 proof ->
  flp_complete E len beta prove_rand (seed_joint E len seed nonce) (query_rand E len vk nonce) ->
  (threshold cfg <= c)%Z -> (c + Z.of_nat (length L) < 2 ^ 64)%Z -> (threshold cfg <= 1 + count L [b])%Z ->
  cfg_hist cfg = len -> cfg_bits cfg = Some bits -> 0 < cfg_query_batch cfg ->
  exists k0 k1, usable bits k0 /\ usable bits k1 /\ same_public k0 k1 /\ forall fuel s0 s1,
    uploaded true len bits vk (map e_r0 L ++ [RSMastic nonce k0 p0 (seed_parts E seed nonce)]) s0 ->
    uploaded false len bits vk (map e_r1 L ++ [RSMastic nonce k1 p1 (seed_parts E seed nonce)]) s1 -> length L + 3 <= fuel ->
    exists t0 t1 rs, run_whh fuel E cfg s0 s1 (length L + 1) = Ret (t0, t1, rs) /\ 2 ^ (bits - 1) <= length rs /\
      forall p, length p = bits -> starts b p = true ->
        In {| res_path := p; res_value := map (fun j => fadd (weight L p j) (halved (bits - 1) (nth j beta (of_Z 0)))) (seq 0 len) ++ [of_Z (count L p + c)] |} rs.
Proof. exact flood_run. Qed.
Print Assumptions C63_refuted.

(** frontiers of an honest run with thresholds 1 and 2; the fourth report passes the FLP check *)
Example C63_example : fl_check = true.
Proof. exact fl_check_ok. Qed.
(** threshold 3, three honest clients with 101, 101 and 001: with an honest fourth client the result is
    empty, with the dishonest one it has all four strings that start with 1 *)
Example C63_refuted_example : f_result 3 (f_k0, f_k1) = Some [] /\
  fl_result 3 = Some [([true; false; false], [0; fl_quarter; 100]); ([true; false; true], [1; 1 + fl_quarter; 102]); ([true; true; false], [0; fl_quarter; 100]); ([true; true; true], [0; fl_quarter; 100])]%Z.
Proof. exact fl_result_ok. Qed.
