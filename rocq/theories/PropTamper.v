(** Property C83 (src/bin/driver.rs:539-686): an aggregator alone cannot change the tables of attribute-based metrics
    or the histograms of plain metrics without being noticed. *)
From Verif Require Import Base Field Util Env Prg Vidpf Merkle Collect Server Driver Modes SpecVidpf SpecLevel SpecWhh SpecMetrics SpecModes Sched System SpecTamper
  RefEnv ToyEnv ExRun DriverPropFacts WhhExamples ModesExamples TamperFacts TamperExamples.
From Coq Require Import Permutation.

(** C83 is false.  Any number can be added by either aggregator to any cell of the table of any batch: the whole program
    ends exactly as without it, panics included, apart from these cells.  There is no condition on the clients,
    the configuration or the state of the aggregators. *)
Theorem C83_tables_refuted : forall E who d fuel cfg clients vk chs samples order s0 s1,
  tampered E who (add_to_tables d) (main_abm_p fuel E cfg clients vk chs samples order) s0 s1 =
  let! '(t0, t1, ts) := main_abm fuel E cfg clients vk chs samples order s0 s1 in Ret (t0, t1, each (cfg_query_batch cfg) (fun start t => raised_table (d start) t) ts).
Proof. exact main_tampered. Qed.
Print Assumptions C83_tables_refuted.
(** the same for the histograms of plain metrics *)
Theorem C83_histograms_refuted : forall E who d fuel shard cfg clients vk chs s0 s1,
  tampered E who (add_to_histograms d) (main_pm_p fuel E shard cfg clients vk chs) s0 s1 =
  let! '(t0, t1, hs) := main_pm fuel E shard cfg clients vk chs s0 s1 in Ret (t0, t1, each (cfg_query_batch cfg) (fun start h => (raised_counts (d start) (fst h), snd h)) hs).
Proof. exact pm_main_tampered. Qed.
Print Assumptions C83_histograms_refuted.

(** With honest clients (C52_main): the table has extra votes wherever the aggregator wants them. *)
Theorem C83_votes_refuted : forall E who extra len bits vk clients reports chs samples order fuel cfg s0 s1,
  env_ok E -> 1 <= bits -> mapM (gen_report E len) clients = Ret reports ->
  Forall (good_client E len bits vk) clients -> Forall (good_choice E len vk reports) chs -> fixed_verifier_len E len ->
  cfg_hist cfg = len -> 0 < cfg_query_batch cfg -> 0 < cfg_add_batch cfg -> hist_ok len = true -> clients <> [] -> length chs <= fuel ->
  running 0 bits s0 -> (exists id, id <> 0%Z /\ running id bits s1) ->
  (forall s, In s samples -> 1 <= s < length clients) -> (forall l, Permutation (order l) l) ->
  exists t0 t1 attrs, tampered E who (add_to_tables (fun start a j => of_Z (extra start a j))) (main_abm_p fuel E cfg clients vk chs samples order) s0 s1 =
    Ret (t0, t1, map (fun ke => padded_table len attrs (in_table (dbg E) clients (firstn (snd ke) chs)) (extra (fst ke * cfg_query_batch cfg))) (numbered (batch_ends (length chs) (cfg_query_batch cfg)))) /\
    NoDup attrs /\ forall a, In a attrs <-> exists i cl, In i samples /\ nth_error clients i = Some cl /\ a = cl_alpha cl.
Proof. exact padded_tables. Qed.
Print Assumptions C83_votes_refuted.
(** With honest clients (C53_main): any counts it likes added to the histograms or, as long as nothing becomes negative,
    taken from them. *)
Theorem C83_counts_refuted : forall E who extra shard len vk clients chs fuel cfg s0 s1,
  (forall cl, In cl clients -> shard len (pc_bucket cl) (pc_nonce cl) (pc_rand cl) <> None) -> Forall (good_pm_choice E shard len vk clients) chs ->
  cfg_hist cfg = len -> hist_ok len = true -> clients <> [] -> 0 < cfg_query_batch cfg -> 0 < cfg_add_batch cfg ->
  length chs <= fuel -> (Z.of_nat (length chs) < 2 ^ 64)%Z ->
  s_poison s0 = false -> s_id s0 = 0%Z -> s_poison s1 = false -> s_id s1 = 1%Z ->
  let honest := map (vote_histogram len) (pieces (cfg_query_batch cfg) (pm_votes clients chs)) in
  (forall k h j z, nth_error honest k = Some h -> nth_error (fst h) j = Some z -> (0 <= z + extra (k * cfg_query_batch cfg)%nat j < P)%Z) ->
  exists t0 t1, tampered E who (add_to_histograms (fun start j => of_Z (extra start j))) (main_pm_p fuel E shard cfg clients vk chs) s0 s1 =
    Ret (t0, t1, each (cfg_query_batch cfg) (fun start h => (padded (extra start) (fst h), snd h)) honest).
Proof. exact padded_histograms. Qed.
Print Assumptions C83_counts_refuted.

(** What the driver does check.  Whatever the two aggregators answer, a batch of attribute-based metrics is printed iff the
    answers have the right form and length and no verifier is malformed.  The size of the tables is not checked. *)
Theorem C83_table_checks : forall E cfg attrs start stop v0 v1 x0 x1 t,
  fed E (abm_batch_p E cfg attrs start stop) [(v0, v1); (x0, x1)] = Some (Ret t) <->
  exists p0 p1 a0 a1, v0 = AAbm p0 /\ v1 = AAbm p1 /\ length p0 = stop - start /\ length p1 = stop - start /\
    (forall i u0 h0 u1 h1, nth_error p0 i = Some (u0, h0) -> nth_error p1 i = Some (u1, h1) -> flp_decide E (cfg_hist cfg) (sum_onto u0 u1) <> None) /\
    x0 = AFields a0 /\ x1 = AFields a1 /\ t = combine attrs (map (fun i => sum_onto (nth i a0 []) (nth i a1 [])) (seq 0 (length a0))).
Proof. exact table_checks. Qed.
Print Assumptions C83_table_checks.
(** A batch of plain metrics is printed iff the answers have the right form and lengths and both aggregators give the same
    number of rejected reports, in a debug build at most the size of the batch. *)
Theorem C83_histogram_checks : forall E cfg start stop v0 v1 x0 x1 hist rej,
  fed E (pm_batch_p E cfg start stop) [(v0, v1); (x0, x1)] = Some (Ret (hist, rej)) <->
  exists p0 p1 a0 a1, v0 = APm p0 /\ v1 = APm p1 /\ length p0 = stop - start /\ length p1 = stop - start /\
    x0 = APmResult a0 rej /\ x1 = APmResult a1 rej /\ (dbg E = true -> (rej <= Z.of_nat (stop - start))%Z) /\ length a0 = cfg_hist cfg /\ length a1 = cfg_hist cfg /\
    hist = map (fun j => fval (fadd (nth j a0 (of_Z 0)) (nth j a1 (of_Z 0)))) (seq 0 (cfg_hist cfg)).
Proof. exact hist_checks. Qed.
Print Assumptions C83_histogram_checks.

(** The run of C52_example with 7 added to one cell of the second table and to one of the third, and the run of C53_example,
    whose second histogram is 0, 1, with 1000 added to bucket 0 and 1 taken from bucket 1.  The hypotheses on the clients
    are those of C52_example and C53_example. *)
Example C83_example :
  (forall who, abm_eqb (tables_of (ta_run who)) [[([true; false; true], [1; 1]); ([false; false; true], [0; 0])];
                                                 [([true; false; true], [1; 9]); ([false; false; true], [0; 1])];
                                                 [([true; false; true], [1; 2]); ([false; false; true], [7; 1])]]%Z = true) /\
  forall who, exists t0 t1,
    tampered rx who (add_to_histograms (fun start j => of_Z (ta_extra start j))) (main_pm_p 20 rx p_shard (cfg2 2 3 1) p_clients ex_vk p_choices) (server_start 0 None 2) (server_start 1 None 2) =
    Ret (t0, t1, [([1; 1], 1); ([1000; 0], 0)])%Z.
Proof. exact (conj ta_attributes ta_histograms). Qed.
