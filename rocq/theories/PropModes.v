(** Properties C52, C53: complete runs of attribute-based metrics and plain metrics (src/bin/driver.rs,
    src/bin/server.rs). *)
From Verif Require Import Base Field Util Env Prg Vidpf Merkle Collect Server Driver Modes SpecVidpf SpecLevel SpecWhh SpecMetrics SpecModes
  ModesFacts ModesMain PmMain RefEnv ToyEnv ExRun VidpfPropFacts DriverPropFacts WhhExamples ModesExamples.
From Coq Require Import Permutation.

(** C52, arbitrary reports that can be evaluated: a debug build ends with a debug assertion iff some report
    fails both checks.  Otherwise there is one table per batch.  It holds, for each attribute, the sum of
    the values of all reports from the first one up to the end of the batch, without those that fail a
    check in a debug build and with them in a release build. *)
Theorem C52_exact : forall E cfg len vk attrs R rows s0 s1,
  cfg_hist cfg = len -> Forall2 (row_of E len vk attrs) R rows -> 0 < cfg_query_batch cfg ->
  untouched true len vk (map fst R) s0 -> untouched false len vk (map snd R) s1 ->
  exists t0 t1, run_abm E cfg s0 s1 attrs (length rows) =
    if dbg E && existsb (fun w => negb (w_fit w) && negb (w_agree w)) rows then Panic PDebugAssert else
    Ret (t0, t1, map (fun e => row_table (dbg E) len attrs (firstn e rows)) (batch_ends (length rows) (cfg_query_batch cfg))).
Proof. intros E cfg len vk attrs R rows s0 s1 Hlen. exact (run_abm_exact E cfg len vk attrs Hlen R rows s0 s1). Qed.
Print Assumptions C52_exact.

(** The whole program with honest clients: no panic; the attributes are the strings of the sampled clients,
    each once; the cell of an attribute and a bucket counts the uploads with that string and bucket. *)
Theorem C52_main : forall E len bits vk clients reports chs samples order fuel cfg s0 s1,
  env_ok E -> 1 <= bits -> mapM (gen_report E len) clients = Ret reports ->
  Forall (good_client E len bits vk) clients -> Forall (good_choice E len vk reports) chs -> fixed_verifier_len E len ->
  cfg_hist cfg = len -> 0 < cfg_query_batch cfg -> 0 < cfg_add_batch cfg -> hist_ok len = true -> clients <> [] -> length chs <= fuel ->
  running 0 bits s0 -> (exists id, id <> 0%Z /\ running id bits s1) ->
  (forall s, In s samples -> 1 <= s < length clients) -> (forall l, Permutation (order l) l) ->
  exists t0 t1 attrs, main_abm fuel E cfg clients vk chs samples order s0 s1 =
    Ret (t0, t1, map (fun e => tally_table len attrs (in_table (dbg E) clients (firstn e chs))) (batch_ends (length chs) (cfg_query_batch cfg))) /\
    NoDup attrs /\ forall a, In a attrs <-> exists i cl, In i samples /\ nth_error clients i = Some cl /\ a = cl_alpha cl.
Proof. exact main_abm_ok. Qed.
Print Assumptions C52_main.

(** three clients with the strings 101 (buckets 1 and 0) and 001 (bucket 1), five uploads of which the last
    one, of client 1, has a spoilt proof, batches of two, attributes from the samples 1, 2, 1: the tables of
    a debug build and of a release build *)
Example C52_example :
  mapM (gen_report tx 2) w_clients = Ret w_reports /\ Forall (good_client tx 2 3 ex_vk) w_clients /\ Forall (good_choice tx 2 ex_vk w_reports) w_choices /\
  fixed_verifier_len tx 2 /\ (forall l : list (list bool), Permutation (rev l) l) /\
  abm_eqb (m_tables tx) [[([true; false; true], [1; 1]); ([false; false; true], [0; 0])];
                         [([true; false; true], [1; 2]); ([false; false; true], [0; 1])];
                         [([true; false; true], [1; 2]); ([false; false; true], [0; 1])]]%Z = true /\
  abm_eqb (m_tables (toy_env false true))
                        [[([true; false; true], [1; 1]); ([false; false; true], [0; 0])];
                         [([true; false; true], [1; 2]); ([false; false; true], [0; 1])];
                         [([true; false; true], [2; 2]); ([false; false; true], [0; 1])]]%Z = true.
Proof. exact m_example. Qed.

(** C53: any Prio3 reports both aggregators can follow: one histogram per batch, of the reports of that
    batch only, with the number of rejected ones. *)
Theorem C53_batches : forall E cfg vk rs s0 s1,
  hist_ok (cfg_hist cfg) = true -> 0 < cfg_query_batch cfg -> (Z.of_nat (length rs) < 2 ^ 64)%Z -> prio_pair E (cfg_hist cfg) vk s0 s1 0 rs ->
  exists t0 t1, run_pm E cfg s0 s1 (length rs) = Ret (t0, t1, map (sum_histogram (cfg_hist cfg)) (pieces (cfg_query_batch cfg) rs)).
Proof. exact run_pm_exact. Qed.
Print Assumptions C53_batches.

Theorem C53_main : forall E shard len vk clients chs fuel cfg s0 s1,
  (forall cl, In cl clients -> shard len (pc_bucket cl) (pc_nonce cl) (pc_rand cl) <> None) -> Forall (good_pm_choice E shard len vk clients) chs ->
  cfg_hist cfg = len -> hist_ok len = true -> clients <> [] -> 0 < cfg_query_batch cfg -> 0 < cfg_add_batch cfg ->
  length chs <= fuel -> (Z.of_nat (length chs) < 2 ^ 64)%Z ->
  s_poison s0 = false -> s_id s0 = 0%Z -> s_poison s1 = false -> s_id s1 = 1%Z ->
  exists t0 t1, main_pm fuel E shard cfg clients vk chs s0 s1 =
    Ret (t0, t1, map (vote_histogram len) (pieces (cfg_query_batch cfg) (pm_votes clients chs))).
Proof. exact main_pm_ok. Qed.
Print Assumptions C53_main.

(** three clients with the buckets 1, 0, 1; uploads 0, 1, 2 (spoilt), 2 in batches of three *)
Example C53_example :
  (forall cl, In cl p_clients -> p_shard 2 (pc_bucket cl) (pc_nonce cl) (pc_rand cl) <> None) /\ Forall (good_pm_choice rx p_shard 2 ex_vk p_clients) p_choices /\
  map (vote_histogram 2) (pieces 3 (pm_votes p_clients p_choices)) = [([1; 1], 1); ([0; 1], 0)]%Z /\
  match main_pm 20 rx p_shard (cfg2 2 3 1) p_clients ex_vk p_choices (server_start 0 None 2) (server_start 1 None 2) with
  | Ret (_, _, ts) => list_eqb (fun a b => list_eqb Z.eqb (fst a) (fst b) && (snd a =? snd b)%Z) ts [([1; 1], 1); ([0; 1], 0)]%Z
  | Panic _ => false end = true.
Proof. exact p_example. Qed.
