(** Property C79: plain metrics with Prio3 itself (prio::vdaf::prio3 for the histogram type, as used by
    src/bin/driver.rs and src/bin/server.rs). *)
From Verif Require Import Base Field Util Env Collect Server Driver Modes Histogram Prio3 SpecPrg SpecVidpf SpecMetrics SpecWhh SpecModes SpecHist SpecPrio3 Prio3Run
  ToyEnv ExRun DriverPropFacts ModesExamples HistExamples Prio3Examples.

(** The whole program: what C53 asks of Prio3 holds for Prio3 itself.  All that is asked of the clients is that
    their bucket exists and that their query point is none of the prover's points; a spoilt upload is refused
    unless the check misses it. *)
Theorem C79_main : forall E, env_ok E -> forall len, hist_ok len = true -> forall vk clients chs fuel cfg s0 s1,
  Forall (p3_fair E len vk) clients -> Forall (p3_fair_choice E len vk clients) chs ->
  cfg_hist cfg = len -> 0 < cfg_query_batch cfg -> 0 < cfg_add_batch cfg -> clients <> [] -> length chs <= fuel -> (Z.of_nat (length chs) < 2 ^ 64)%Z ->
  s_poison s0 = false -> s_id s0 = 0%Z -> s_poison s1 = false -> s_id s1 = 1%Z ->
  exists t0 t1, main_pm fuel (p3_env E) (p3_shard E) cfg clients vk chs s0 s1 =
    Ret (t0, t1, map (vote_histogram len) (pieces (cfg_query_batch cfg) (pm_votes clients chs))).
Proof. exact p3_main. Qed.
Print Assumptions C79_main.

(** Sharding succeeds, and both aggregators end with shares of the client's bucket. *)
Theorem C79_honest : forall E, env_ok E -> forall len, hist_ok len = true -> forall vk cl, p3_fair E len vk cl ->
  exists pub i0 i1, p3_shard E len (pc_bucket cl) (pc_nonce cl) (pc_rand cl) = Some (pub, (i0, i1)) /\ length i1 = 48 /\
  p3_run (p3_env E) len vk (RSPrio3 (pc_nonce cl) pub i0) (RSPrio3 (pc_nonce cl) pub i1) (Some (one_hot len (pc_bucket cl))).
Proof. exact honest_run. Qed.
Print Assumptions C79_honest.

(** A spoilt upload is missed at few query points only, unless all the products of the range check vanish. *)
Theorem C79_missed : forall E, env_ok E -> forall len, hist_ok len = true -> forall cl S, pc_bucket cl < len ->
  (exists k, k < ncalls (chunk_length_plain len) len /\
     p3_chunk (chunk_length_plain len) (p3_leader_x E len cl) (p3_wrong_x E len cl) (nth 0 (p3_joint E len cl) fzero) (nth 0 (p3_wrong_joint E len cl) fzero) k <> fzero) ->
  NoDup S -> (forall r, In r S -> p3_missed E len cl r) -> length S <= 2 * (2 ^ wire_log (chunk_length_plain len) len - 1).
Proof. exact missed_few. Qed.
Print Assumptions C79_missed.

(** Any upload, whoever made it: if both aggregators finish, both checked it with the joint randomness derived from
    both measurement shares, so that it was accepted in the sense of C74. *)
Theorem C79_joint : forall E, env_ok E -> forall len vk nonce pub0 pub1 i0 i1 x0 x1, is_bytes i0 -> p3_finished E len vk nonce pub0 pub1 i0 i1 x0 x1 ->
  exists p0 p1 b0 b1, leader_message len i0 x0 p0 b0 /\ helper_message E len i1 x1 p1 b1 /\ let seed := bound_seed E nonce b0 b1 x0 x1 in
    accepted (chunk_length_plain len) len (add_shares x0 x1) (add_shares p0 p1) (bound_joint E seed 0) (bound_joint E seed 1) (bound_point E vk nonce).
Proof. exact finished_bytes. Qed.
Print Assumptions C79_joint.

(** four buckets, three clients with the buckets 1, 0, 3, uploads 0, 1, 2 (spoilt), 2 in batches of three *)
Example C79_example :
  env_ok y3 /\ Forall (p3_fair y3 4 ex_vk) y_clients /\ Forall (p3_fair_choice y3 4 ex_vk y_clients) y_choices /\
  y_result (main_pm 20 (p3_env y3) (p3_shard y3) y_cfg y_clients ex_vk y_choices (server_start 0 None 4) (server_start 1 None 4)) =
    Some [([1; 1; 0; 0], 1); ([0; 0; 0; 1], 0)]%Z.
Proof. exact (conj y3_ok (conj (y_fair_ok y3 y_fair_all) (conj y_choices_fair y_run))). Qed.
(** for the spoilt upload of client 2 the products do not vanish; the report of client 0 is finished *)
Example C79_example_missed : exists k, k < ncalls (chunk_length_plain 4) 4 /\
  p3_chunk (chunk_length_plain 4) (p3_leader_x y3 4 (y_client 3 3)) (p3_wrong_x y3 4 (y_client 3 3)) (nth 0 (p3_joint y3 4 (y_client 3 3)) fzero) (nth 0 (p3_wrong_joint y3 4 (y_client 3 3)) fzero) k <> fzero.
Proof. exact y_few. Qed.
Example C79_example_joint : exists pub i0 i1 x0 x1, p3_shard y3 4 1 (pc_nonce (y_client 1 1)) (pc_rand (y_client 1 1)) = Some (pub, (i0, i1)) /\
  is_bytes i0 /\ p3_finished y3 4 ex_vk (pc_nonce (y_client 1 1)) pub pub i0 i1 x0 x1.
Proof. exact y_finished. Qed.
