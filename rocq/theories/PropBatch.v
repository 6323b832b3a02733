(** Property C71 (src/bin/driver.rs main, run_flp_queries, run_level, run_level_last,
    run_attribute_based_metrics, run_plain_metrics; src/config.rs): every run of the driver ends. *)
From Verif Require Import Base Field Util Env Prg Vidpf Merkle Collect Server Driver Modes SpecVidpf SpecTree SpecLevel SpecWhh SpecBatch
  ToyEnv ExRun WhhExamples BatchFacts TermFacts BatchExamples.

(** With positive batch sizes it does, in all three modes: whatever the clients, the choices of uploads, the
    state the aggregators were left in and the cryptography, no loop goes round more than n + 2 times for n
    uploads, and the outcome (a result or a panic) does not depend on how many more rounds are allowed. *)
Theorem C71_ends : forall E cfg clients pclients shard vk chs samples order s0 s1, 0 < cfg_query_batch cfg -> 0 < cfg_add_batch cfg ->
  ends_within (length chs + 2) (fun fuel => main_whh fuel E cfg clients vk chs s0 s1) /\
  ends_within (length chs + 2) (fun fuel => main_abm fuel E cfg clients vk chs samples order s0 s1) /\
  ends_within (length chs + 2) (fun fuel => main_pm fuel E shard cfg pclients vk chs s0 s1).
Proof. exact all_end. Qed.
Print Assumptions C71_ends.

(** C71 is false: the sizes are read from the configuration file unchecked.  With query_flp_batch_size = 0 a
    release build asks the aggregators for the empty range of clients for ever. *)
Theorem C71_query_refuted : forall E len bits L vk cfg s0 s1, env_ok E -> dbg E = false -> Forall (good_entry E len bits) L -> cfg_bits cfg = Some bits -> 2 <= bits -> L <> [] ->
  uploaded true len bits vk (map e_r0 L) s0 -> uploaded false len bits vk (map e_r1 L) s1 -> cfg_query_batch cfg = 0 ->
  endless (fun fuel => run_whh fuel E cfg s0 s1 (length L)).
Proof. exact endless_run. Qed.
Print Assumptions C71_query_refuted.

(** With add_report_share_batch_size = 0 the upload goes round for ever, in every build. *)
Theorem C71_upload_refuted : forall E cfg reports chs s0 s1, cfg_add_batch cfg = 0 -> chs <> [] -> endless (fun fuel => upload fuel E cfg reports chs s0 s1).
Proof. exact upload_zero. Qed.
Print Assumptions C71_upload_refuted.

(** With query_flp_batch_size = 0 no run of any mode gives a result, *)
Theorem C71_no_result : forall cfg, cfg_query_batch cfg = 0 -> forall fuel E clients pclients shard vk chs samples order s0 s1, chs <> [] ->
  (forall t, main_whh fuel E cfg clients vk chs s0 s1 <> Ret t) /\ (forall t, main_abm fuel E cfg clients vk chs samples order s0 s1 <> Ret t) /\
  (forall t, main_pm fuel E shard cfg pclients vk chs s0 s1 <> Ret t).
Proof. exact batch_zero. Qed.
Print Assumptions C71_no_result.

(** and in a debug build the first such request disables the aggregator for good. *)
Theorem C71_disabled : forall E s, dbg E = true -> s_poison s = false ->
  handle E s (QRunFlpQueries 0 0) = (set_poison s, Panic PDebugAssert) /\ handle E s (QGetProofs 0 0) = (set_poison s, Panic PDebugAssert).
Proof. exact disabled_by_zero. Qed.
Print Assumptions C71_disabled.

(** five uploads, three bits: 7 rounds are enough with batches of two; with batches of 0 the run is not over
    after 40 rounds, or panics *)
Example C71_example :
  b_whh tx 1 2 7 = EndRet /\ b_abm tx 1 2 7 = EndRet /\ b_whh tx 1 2 1 = EndFuel /\
  b_whh rx_release 1 0 40 = EndFuel /\ b_whh tx 1 0 40 = EndPanic PDebugAssert /\ b_abm tx 1 0 40 = EndPanic PArith /\ b_whh tx 0 2 40 = EndFuel /\ b_abm tx 0 2 40 = EndFuel.
Proof. exact b_ok. Qed.
