(** Property C69 (src/bin/driver.rs, src/bin/server.rs): the three modes of operation agree with each other on
    the same clients. *)
From Verif Require Import Base Field Util Env Prg Vidpf Merkle Collect Server Driver Modes SpecVidpf SpecTree SpecLevel SpecWhh SpecMetrics SpecModes SpecAgree
  ToyEnv ExRun WhhExamples ModesExamples AgreeFacts AgreeExamples.
From Coq Require Import Permutation.
Local Open Scope Z_scope.

(** Weighted heavy hitters and attribute-based metrics, each run from the upload on, with any batch sizes: an
    attribute of the last table is a result of weighted heavy hitters iff its weights add up to the threshold
    or more, and then with the same weights.  Release builds keep spoilt reports in attribute-based metrics
    (C33), so there must be none. *)
Theorem C69_attributes : forall E len bits vk clients reports chs samples order fuel fuel' cfg cfg' s0 s1 s0' s1',
  env_ok E -> (1 <= bits)%nat -> mapM (gen_report E len) clients = Ret reports ->
  Forall (good_client E len bits vk) clients -> Forall (good_choice E len vk reports) chs -> fixed_verifier_len E len ->
  cfg_hist cfg = len -> cfg_bits cfg = Some bits -> (0 < cfg_query_batch cfg)%nat -> (0 < cfg_add_batch cfg)%nat -> hist_ok len = true -> (length chs <= fuel)%nat ->
  cfg_hist cfg' = len -> (0 < cfg_query_batch cfg')%nat -> (0 < cfg_add_batch cfg')%nat -> (length chs <= fuel')%nat -> Z.of_nat (length chs) < 2 ^ 64 ->
  running 0 bits s0 -> (exists id, id <> 0 /\ running id bits s1) -> running 0 bits s0' -> (exists id, id <> 0 /\ running id bits s1') ->
  existsb counts chs = true -> (bits = 1%nat \/ dbg E = false -> forallb counts chs = true) ->
  (forall s, In s samples -> (1 <= s < length clients)%nat) -> (forall l, Permutation (order l) l) ->
  (forall l, (1 <= l)%nat -> (l + 1 < bits)%nat -> exists p, length p = l /\ popular (threshold cfg) (ballots clients chs) p = true) ->
  exists t0 t1 rs t0' t1' tables, main_whh fuel E cfg clients vk chs s0 s1 = Ret (t0, t1, rs) /\
    main_abm fuel' E cfg' clients vk chs samples order s0' s1' = Ret (t0', t1', tables) /\
    forall a w, In (a, w) (last tables []) -> length w = len /\
      forall x, In {| res_path := a; res_value := x |} rs <-> threshold cfg <= zsum (map fval w) /\ x = w ++ [of_Z (zsum (map fval w))].
Proof. exact agree_abm. Qed.
Print Assumptions C69_attributes.

(** Weighted heavy hitters with threshold 1 and plain metrics, for clients with the same buckets that all
    upload unspoilt reports: the histograms of the batches and the results add up to the same numbers. *)
Theorem C69_histograms : forall E shard len bits vk clients pclients reports chs fuel fuel' cfg cfg' s0 s1 s0' s1',
  env_ok E -> (1 <= bits)%nat -> mapM (gen_report E len) clients = Ret reports ->
  Forall (good_client E len bits vk) clients -> Forall (good_choice E len vk reports) chs ->
  Forall2 (fun cl pc => cl_bucket cl = pc_bucket pc) clients pclients -> chs <> [] -> Forall (fun ch => ch_malicious ch = false) chs ->
  (forall cl, In cl pclients -> shard len (pc_bucket cl) (pc_nonce cl) (pc_rand cl) <> None) -> Forall (good_pm_choice E shard len vk pclients) chs ->
  cfg_hist cfg = len -> cfg_bits cfg = Some bits -> (0 < cfg_query_batch cfg)%nat -> (0 < cfg_add_batch cfg)%nat -> hist_ok len = true -> (length chs <= fuel)%nat -> cfg_thr cfg <= 1 ->
  cfg_hist cfg' = len -> (0 < cfg_query_batch cfg')%nat -> (0 < cfg_add_batch cfg')%nat -> (length chs <= fuel')%nat -> Z.of_nat (length chs) < 2 ^ 64 ->
  running 0 bits s0 -> (exists id, id <> 0 /\ running id bits s1) -> s_poison s0' = false -> s_id s0' = 0 -> s_poison s1' = false -> s_id s1' = 1 ->
  exists t0 t1 rs t0' t1' hs, main_whh fuel E cfg clients vk chs s0 s1 = Ret (t0, t1, rs) /\
    main_pm fuel' E shard cfg' pclients vk chs s0' s1' = Ret (t0', t1', hs) /\
    forall j, (j < len)%nat -> zsum (map (fun h => nth j (fst h) 0) hs) = zsum (map (fun r => entry_of j (res_value r)) rs).
Proof. exact agree_pm. Qed.
Print Assumptions C69_histograms.

(** the uploads of C52_example: 101 has weights 1 and 2, so it is a result for thresholds 2 and 1, and 001 for 1 *)
Example C69_example : ag_last (m_tables tx) = [([true; false; true], [1; 2]); ([false; false; true], [0; 1])]%Z /\
  w_result 2 = Some [([true; false; true], [1; 2; 3])]%Z /\ w_result 1 = Some [([false; false; true], [0; 1; 1]); ([true; false; true], [1; 2; 3])]%Z.
Proof. exact ag_abm_ok. Qed.
(** four uploads of three clients: one for the first bucket and three for the second, in either mode *)
Example C69_histograms_example : map cl_bucket w_clients = map pc_bucket p_clients /\ zll_eqb ag_pm [[1; 2]; [0; 1]]%Z = true /\
  w_run w_clients ag_choices 1 = Some [([false; false; true], [0; 1; 1]); ([true; false; true], [1; 2; 3])]%Z.
Proof. exact ag_pm_ok. Qed.
