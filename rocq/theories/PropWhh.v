(** Properties C18, C22, C27 and C43: honest reports and complete runs of weighted heavy hitters. *)
From Verif Require Import Base Field Util Env Prg Vidpf Merkle Collect Server Driver SpecVidpf SpecCollect SpecServer SpecDriver SpecLevel SpecWhh
  VidpfPropFacts DriverPropFacts FlpFacts WhhFacts3 WhhMain HonestFacts RefEnv ToyEnv ExRun RefuteExamples WhhExamples.

(** C18.  [c0], [c1]: the collectors of the two aggregators, holding any reports; report i is the two
    shares of an honest client's report. *)
Theorem C18_randomness : forall E len cl r c0 c1 i h0 h1,
  env_ok E -> gen_report E len cl = Ret r -> length (cl_seed0 cl) = 16 -> length (cl_seed1 cl) = 16 ->
  c_len c0 = len -> c_len c1 = len -> c_vk c1 = c_vk c0 -> (c_sid c0 =? 0)%Z = true -> (c_sid c1 =? 0)%Z = false ->
  nth_error (c_reports c0) i = Some (h0, fst (to_shares r)) -> nth_error (c_reports c1) i = Some (h1, snd (to_shares r)) ->
  flp_joint_rand E c0 i = Ret (prover_joint_rand E len cl) /\ flp_joint_rand E c1 i = Ret (prover_joint_rand E len cl) /\
  flp_query_rand E c0 i = Ret (query_rand E len (c_vk c0) (cl_nonce cl)) /\ flp_query_rand E c1 i = Ret (query_rand E len (c_vk c0) (cl_nonce cl)).
Proof. exact randomness_any. Qed.
Print Assumptions C18_randomness.

(** the shares the two aggregators hand to the FLP add up to the client's weights *)
Theorem C18_weights : forall E k0 k1 alpha beta,
  env_ok E -> honest_keys E k0 k1 alpha beta -> alpha <> [] ->
  shares_of (beta_share E (length beta) k0) (beta_share E (length beta) k1) beta.
Proof. exact beta_shares_any. Qed.
Print Assumptions C18_weights.

(** the driver's decision on the report alone is accept, provided the other reports can be evaluated *)
Theorem C18_accepted : forall E len cl r c0 c1 d0 d1 i h0 h1,
  env_ok E -> tree_init c0 = Ret d0 -> tree_init c1 = Ret d1 -> c_len c0 = len -> c_len c1 = len -> c_vk c1 = c_vk c0 ->
  (c_sid c0 =? 0)%Z = true -> (c_sid c1 =? 0)%Z = false ->
  (forall h x, In (h, x) (c_reports c0) -> well_formed 1 x) -> (forall h x, In (h, x) (c_reports c1) -> well_formed 1 x) ->
  gen_report E len cl = Ret r -> length (cl_seed0 cl) = 16 -> length (cl_seed1 cl) = 16 -> cl_alpha cl <> [] ->
  flp_complete E len (one_hot len (cl_bucket cl)) (cl_prove_rand cl) (prover_joint_rand E len cl) (query_rand E len (c_vk c0) (cl_nonce cl)) ->
  nth_error (c_reports c0) i = Some (h0, fst (to_shares r)) -> nth_error (c_reports c1) i = Some (h1, snd (to_shares r)) ->
  flp_verdict E len d0 d1 i true.
Proof. exact (fun E len cl r c0 c1 d0 d1 i h0 h1 Hok => honest_flp_verdict E Hok len cl r c0 c1 d0 d1 i h0 h1). Qed.
Print Assumptions C18_accepted.

(** whatever the batch size and the other reports: if the FLP phase of the driver completes at all, the
    report is kept *)
Theorem C18_kept : forall fuel E cfg len cl r s0 s1 d0 d1 n i h0 h1 t0 t1 keep,
  env_ok E -> cfg_hist cfg = len -> 0 < cfg_query_batch cfg -> n <= fuel -> s_poison s0 = false -> s_poison s1 = false ->
  tree_init (s_coll s0) = Ret d0 -> tree_init (s_coll s1) = Ret d1 -> length (c_reports (s_coll s0)) = n -> length (c_reports (s_coll s1)) = n ->
  c_len (s_coll s0) = len -> c_len (s_coll s1) = len -> c_vk (s_coll s1) = c_vk (s_coll s0) ->
  (c_sid (s_coll s0) =? 0)%Z = true -> (c_sid (s_coll s1) =? 0)%Z = false ->
  gen_report E len cl = Ret r -> length (cl_seed0 cl) = 16 -> length (cl_seed1 cl) = 16 -> cl_alpha cl <> [] ->
  flp_complete E len (one_hot len (cl_bucket cl)) (cl_prove_rand cl) (prover_joint_rand E len cl) (query_rand E len (c_vk (s_coll s0)) (cl_nonce cl)) ->
  nth_error (c_reports (s_coll s0)) i = Some (h0, fst (to_shares r)) -> nth_error (c_reports (s_coll s1)) i = Some (h1, snd (to_shares r)) ->
  flp_loop fuel E cfg (set_coll s0 d0) (set_coll s1 d1) n 0 [] = Ret (t0, t1, keep) -> nth_error keep i = Some true.
Proof. exact (fun fuel E cfg len cl r s0 s1 d0 d1 n i h0 h1 t0 t1 keep Hok => flp_keeps_honest E Hok fuel cfg len cl r s0 s1 d0 d1 n i h0 h1 t0 t1 keep). Qed.
Print Assumptions C18_kept.

(** five uploads, the last with a spoilt proof: the loop completes and keeps the first four; the FLP
    stand-in satisfies the completeness hypothesis *)
Example C18_example : w_keep 2 = Some [true; true; true; true; false] /\ w_keep 3 = Some [true; true; true; true; false] /\
  forall m pr jr qr, m < 2 -> flp_complete tx 2 (one_hot 2 m) pr jr qr.
Proof. exact w_keep_ok. Qed.

(** C22, for any reports: [L] lists what was uploaded.  Reports that the FLP check accepts are honest;
    the others are arbitrary as long as their keys are long enough to be evaluated. *)
Theorem C22_any_reports : forall E len bits L vk fuel cfg s0 s1,
  env_ok E -> Forall (good_entry E len bits) L -> (Z.of_nat (length L) < 2 ^ 64)%Z ->
  cfg_hist cfg = len -> cfg_bits cfg = Some bits -> 0 < cfg_query_batch cfg -> 1 <= bits -> length L <= fuel ->
  uploaded true len bits vk (map e_r0 L) s0 -> uploaded false len bits vk (map e_r1 L) s1 ->
  (2 <= bits -> existsb e_ok L = true /\ Forall (fun e => report_verdict E len vk (e_r0 e) (e_r1 e) (e_ok e)) L) ->
  (bits = 1 -> forallb e_ok L = true) ->
  (forall l, 1 <= l -> l + 1 < bits -> exists p, length p = l /\ heavy (threshold cfg) L p = true) ->
  exists t0 t1, run_whh fuel E cfg s0 s1 (length L) = Ret (t0, t1, map (exact_result L len) (filter (heavy (threshold cfg) L) (all_paths bits))).
Proof. exact run_whh_any. Qed.
Print Assumptions C22_any_reports.

(** C22, the whole program: simulated clients, upload, FLP check, levels, last level.  The result lists
    the strings held by at least threshold clients with the number of these clients per bucket and in
    total. *)
Theorem C22_main : forall E len bits vk clients reports chs fuel cfg s0 s1,
  env_ok E -> 1 <= bits -> mapM (gen_report E len) clients = Ret reports ->
  Forall (good_client E len bits vk) clients -> Forall (good_choice E len vk reports) chs ->
  cfg_hist cfg = len -> cfg_bits cfg = Some bits -> 0 < cfg_query_batch cfg -> 0 < cfg_add_batch cfg -> hist_ok len = true -> clients <> [] ->
  length chs <= fuel -> (Z.of_nat (length chs) < 2 ^ 64)%Z -> running 0 bits s0 -> (exists id, id <> 0%Z /\ running id bits s1) ->
  (2 <= bits -> existsb counts chs = true) -> (bits = 1 -> forallb counts chs = true) ->
  (forall l, 1 <= l -> l + 1 < bits -> exists p, length p = l /\ popular (threshold cfg) (ballots clients chs) p = true) ->
  exists t0 t1, main_whh fuel E cfg clients vk chs s0 s1 =
    Ret (t0, t1, map (tally_result (ballots clients chs) len) (filter (popular (threshold cfg) (ballots clients chs)) (all_paths bits))).
Proof. exact (fun E len bits vk clients reports chs fuel cfg s0 s1 Hok Hb Hr Hc Hh => main_whh_ok E Hok len bits vk clients reports chs Hb Hr Hc Hh fuel cfg s0 s1). Qed.
Print Assumptions C22_main.

(** the strings are all strings of the given length, each once, in lexicographic order *)
Theorem C22_order : forall bits, sorted_paths (all_paths bits) /\ forall p, In p (all_paths bits) <-> length p = bits.
Proof. exact all_paths_ok. Qed.
Print Assumptions C22_order.

(** three clients with the strings 101 (twice) and 001; client 0 uploads a second time, client 1 a second
    time with a spoilt proof.  All hypotheses hold for thresholds up to 4; the computed result. *)
Example C22_example :
  mapM (gen_report tx 2) w_clients = Ret w_reports /\ Forall (good_client tx 2 3 ex_vk) w_clients /\ Forall (good_choice tx 2 ex_vk w_reports) w_choices /\
  popular 2 (ballots w_clients w_choices) [true] = true /\
  w_result 2 = Some [([true; false; true], [1; 2; 3])]%Z /\
  w_result 1 = Some [([false; false; true], [0; 1; 1]); ([true; false; true], [1; 2; 3])]%Z.
Proof. exact w_result_ok. Qed.

(** C27: if at some level before the last two no prefix reaches the threshold, the run panics; in all
    other cases theorem C22 applies, so the result is empty when only the last two levels are light. *)
Theorem C27_refuted : forall E len bits vk clients reports chs fuel cfg s0 s1 l,
  env_ok E -> 1 <= bits -> mapM (gen_report E len) clients = Ret reports ->
  Forall (good_client E len bits vk) clients -> Forall (good_choice E len vk reports) chs ->
  cfg_hist cfg = len -> cfg_bits cfg = Some bits -> 0 < cfg_query_batch cfg -> 0 < cfg_add_batch cfg -> hist_ok len = true ->
  length chs <= fuel -> (Z.of_nat (length chs) < 2 ^ 64)%Z -> running 0 bits s0 -> (exists id, id <> 0%Z /\ running id bits s1) ->
  existsb counts chs = true ->
  1 <= l -> l + 1 < bits -> (forall p, length p = l -> popular (threshold cfg) (ballots clients chs) p = false) ->
  main_whh fuel E cfg clients vk chs s0 s1 = Panic PIndex.
Proof. exact (fun E len bits vk clients reports chs fuel cfg s0 s1 l Hok Hb Hr Hc Hh => main_whh_empty E Hok len bits vk clients reports chs Hb Hr Hc Hh fuel cfg s0 s1 l). Qed.
Print Assumptions C27_refuted.

(** the crawl that panics does so under the lock: the aggregator refuses everything from then on *)
Theorem C27_poisons : forall E s split last,
  s_poison s = false -> c_frontier (s_coll s) = [] ->
  handle E s (QTreeCrawl split [] last) = (set_poison s, Panic PIndex).
Proof. exact RefuteFacts.empty_frontier_crawl. Qed.
Print Assumptions C27_poisons.

(** what holds: nothing heavy at the last two levels gives an empty result *)
Theorem C27_last_levels : forall E len bits vk clients reports chs fuel cfg s0 s1,
  env_ok E -> 2 <= bits -> mapM (gen_report E len) clients = Ret reports ->
  Forall (good_client E len bits vk) clients -> Forall (good_choice E len vk reports) chs ->
  cfg_hist cfg = len -> cfg_bits cfg = Some bits -> 0 < cfg_query_batch cfg -> 0 < cfg_add_batch cfg -> hist_ok len = true ->
  length chs <= fuel -> (Z.of_nat (length chs) < 2 ^ 64)%Z -> running 0 bits s0 -> (exists id, id <> 0%Z /\ running id bits s1) ->
  existsb counts chs = true ->
  (forall l, 1 <= l -> l + 1 < bits -> exists p, length p = l /\ popular (threshold cfg) (ballots clients chs) p = true) ->
  (forall p, length p = bits -> popular (threshold cfg) (ballots clients chs) p = false) ->
  exists t0 t1, main_whh fuel E cfg clients vk chs s0 s1 = Ret (t0, t1, []).
Proof. exact main_light. Qed.
Print Assumptions C27_last_levels.

(** with the uploads of C22_example four clients at most share a one-bit prefix, so threshold 5 panics
    (None); two clients with 101 and 100 and threshold 2 give an empty result *)
Example C27_example : w_result 5 = None /\ w_light = Some [].
Proof. exact w_light_ok. Qed.

(** C43: any two aggregators, in any state they can reach, that hold an honest report at position i (with
    whatever flag) and the same frontier compute the same strings for it. *)
Theorem C43_equal : forall E id bits0 bits1 h0 h1 qs0 qs1 s0 s1 i f0 f1 r0 r1 alpha beta level b0 b1 next0 next1 checks0 checks1,
  env_ok E -> id <> 0%Z -> s0 = fst (handle_all E (server_start 0 bits0 h0) qs0) -> s1 = fst (handle_all E (server_start id bits1 h1) qs1) ->
  nth_error (c_reports (s_coll s0)) i = Some (f0, r0) -> nth_error (c_reports (s_coll s1)) i = Some (f1, r1) ->
  honest_keys E (key_of r0) (key_of r1) alpha beta -> c_len (s_coll s0) = length beta -> c_len (s_coll s1) = length beta ->
  c_frontier (s_coll s0) <> [] -> map tn_path (c_frontier (s_coll s0)) = map tn_path (c_frontier (s_coll s1)) ->
  (forall n, In n (c_frontier (s_coll s0)) -> length (tn_path n) = level) -> level < length alpha ->
  crawl_children E (s_coll s0) b0 = Ret next0 -> crawl_children E (s_coll s1) b1 = Ret next1 ->
  (y_checks E (s_coll s0) level next0 = Ret checks0 -> y_checks E (s_coll s1) level next1 = Ret checks1 ->
   exists h, client_hash E (s_coll s0) level next0 checks0 i = Ret h /\ client_hash E (s_coll s1) level next1 checks1 i = Ret h) /\
  (exists h, xor_proofs next0 i = Ret h /\ xor_proofs next1 i = Ret h).
Proof. exact level_checks_equal. Qed.
Print Assumptions C43_equal.

(** three reports, the second one with a changed root seed at one aggregator; at the root and at a frontier of two prefixes
    the strings of reports 0 and 2 agree and those of report 1 do not *)
Example C43_example : w_strings = ([true; false; true], [true; false; true]).
Proof. exact w_strings_ok. Qed.
