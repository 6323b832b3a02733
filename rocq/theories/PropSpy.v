(** Property C66 (src/bin/server.rs apply_flp_results, tree_init; src/bin/driver.rs run_level): the driver,
    which is neither aggregator, learns the totals of the prefixes above the threshold and nothing else. *)
From Verif Require Import Base Field Util Env Prg Vidpf Merkle Collect Server Driver SpecVidpf SpecTree SpecLevel SpecWhh SpecSpy
  ToyEnv ExRun WhhExamples FloodExamples SpyFacts SpyExamples.

(** What the driver does learn when it follows the protocol.  After k levels, the two answers to its next
    request (an ordinary crawl or the last one) add up to the totals of both children of every heavy prefix
    of k bits, whether these totals reach the threshold or not. *)
Theorem C66_view : forall E len bits L vk fuel cfg s0 s1 k,
  env_ok E -> Forall (good_entry E len bits) L -> (Z.of_nat (length L) < 2 ^ 64)%Z -> cfg_hist cfg = len -> 0 < cfg_query_batch cfg -> k < bits -> length L <= fuel ->
  uploaded true len bits vk (map e_r0 L) s0 -> uploaded false len bits vk (map e_r1 L) s1 ->
  existsb e_ok L = true -> Forall (fun e => report_verdict E len vk (e_r0 e) (e_r1 e) (e_ok e)) L ->
  (forall l, 1 <= l <= k -> exists p, length p = l /\ heavy (threshold cfg) L p = true) ->
  exists t0 t1, levels_done fuel E cfg (length L) k s0 s1 = Ret (t0, t1) /\
    (exists ss v0 v1 root, ask_servers E (t0, t1) 1 [] false = Ret (ss, (v0, [root], [0]), (v1, [root], [0])) /\
      seen len v0 v1 = map (totals L len) (children (heavy_prefixes (threshold cfg) L k))) /\
    (exists u0 u1 v0 v1, call2 E t0 t1 QTreeCrawlLast QTreeCrawlLast = Ret (u0, u1, (AFields v0, AFields v1)) /\
      seen len v0 v1 = map (totals L len) (children (heavy_prefixes (threshold cfg) L k))).
Proof. exact view_lemma. Qed.
Print Assumptions C66_view.

(** C66 is false of a driver that does not follow the protocol.  The aggregators take the FLP verdicts from
    the driver.  If they hold the reports of L, with whatever marks and at whatever point of a run, then for
    every client i whose report is marked as valid and is honest the driver can obtain that client's string
    and weights.  Nothing is assumed of the other clients but that their keys have the right shape. *)
Theorem C66_refuted : forall E, env_ok E -> forall len bits L i e,
  Forall (fun e => well_formed bits (e_r0 e) /\ well_formed bits (e_r1 e)) L -> nth_error L i = Some e -> e_ok e = true ->
  honest_keys E (key_of (e_r0 e)) (key_of (e_r1 e)) (e_alpha e) (e_beta e) -> length (e_alpha e) = bits -> length (e_beta e) = len ->
  forall cfg fuel s0 s1, cfg_hist cfg = len -> cfg_bits cfg = Some bits -> 0 < cfg_query_batch cfg -> (cfg_thr cfg <= 1)%Z -> 1 <= bits -> length L <= fuel ->
  (Z.of_nat (length L) < 2 ^ 64)%Z -> holding true len bits (held0 L) s0 -> holding false len bits (held1 L) s1 ->
  exists t0 t1, spy fuel E cfg (length L) i s0 s1 = Ret (t0, t1, [{| res_path := e_alpha e; res_value := e_beta e ++ [of_Z 1] |}]).
Proof. exact spy_lemma. Qed.
Print Assumptions C66_refuted.

(** In particular this works after a completed run with any threshold: the run gives exactly the heavy
    strings, and then every accepted client can be singled out, however rare its string. *)
Theorem C66_after_run_refuted : forall E len bits L vk fuel cfg cfg' s0 s1,
  env_ok E -> Forall (good_entry E len bits) L -> (Z.of_nat (length L) < 2 ^ 64)%Z -> cfg_hist cfg = len -> cfg_bits cfg = Some bits -> 0 < cfg_query_batch cfg -> 2 <= bits -> length L <= fuel ->
  uploaded true len bits vk (map e_r0 L) s0 -> uploaded false len bits vk (map e_r1 L) s1 ->
  existsb e_ok L = true -> Forall (fun e => report_verdict E len vk (e_r0 e) (e_r1 e) (e_ok e)) L ->
  (forall l, 1 <= l < bits -> exists p, length p = l /\ heavy (threshold cfg) L p = true) ->
  cfg_hist cfg' = len -> cfg_bits cfg' = Some bits -> 0 < cfg_query_batch cfg' -> (cfg_thr cfg' <= 1)%Z ->
  exists t0 t1 rs, run_whh fuel E cfg s0 s1 (length L) = Ret (t0, t1, rs) /\
    (forall r, In r rs <-> exists p, length p = bits /\ heavy (threshold cfg) L p = true /\ r = {| res_path := p; res_value := totals L len p |}) /\
    forall i e, nth_error L i = Some e -> e_ok e = true ->
      exists u0 u1, spy fuel E cfg' (length L) i t0 t1 = Ret (u0, u1, [{| res_path := e_alpha e; res_value := e_beta e ++ [of_Z 1] |}]).
Proof. exact spy_after. Qed.
Print Assumptions C66_after_run_refuted.

(** threshold 2, clients with 101, 101 and 001: at level 0 the driver sees the total 1 of the prefix 0 *)
Example C66_example : sp_check = true.
Proof. exact sp_check_ok. Qed.
(** the run gives 101 only; afterwards each of the three clients is singled out *)
Example C66_refuted_example : sp_show sp_run = Some [([true; false; true], [1; 1; 2]%Z)] /\
  sp_show (sp_then 0 sp_run) = Some [([true; false; true], [0; 1; 1]%Z)] /\ sp_show (sp_then 1 sp_run) = Some [([true; false; true], [1; 0; 1]%Z)] /\
  sp_show (sp_then 2 sp_run) = Some [([false; false; true], [0; 1; 1]%Z)].
Proof. exact sp_ok. Qed.
