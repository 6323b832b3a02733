(** Property C70 (src/bin/driver.rs run_level, run_level_last): an aggregator alone cannot change which
    strings are reported. *)
From Verif Require Import Base Field Util Env Prg Vidpf Merkle Collect Server Driver SpecVidpf SpecTree SpecLevel SpecWhh SpecShift
  ToyEnv ExRun WhhExamples FloodExamples ShiftFacts ShiftExamples.

(** C70 is false: the counters are added up by the driver as they are sent.  An aggregator that adds
    threshold - c to its share of every counter runs the whole protocol with threshold c instead, whatever c
    between 1 and the configured threshold: same outcome, same aggregator states, same result, and neither the
    driver nor the other aggregator sees any difference to an honest run with that threshold. *)
Theorem C70_threshold_refuted : forall E len bits L vk fuel cfg c s0 s1,
  env_ok E -> Forall (good_entry E len bits) L -> (1 <= c <= threshold cfg)%Z -> (Z.of_nat (length L) + threshold cfg < 2 ^ 64)%Z ->
  cfg_hist cfg = len -> cfg_bits cfg = Some bits -> 0 < cfg_query_batch cfg -> 1 <= bits -> length L <= fuel ->
  uploaded true len bits vk (map e_r0 L) s0 -> uploaded false len bits vk (map e_r1 L) s1 ->
  (2 <= bits -> existsb e_ok L = true /\ Forall (fun e => report_verdict E len vk (e_r0 e) (e_r1 e) (e_ok e)) L) ->
  (bits = 1 -> forallb e_ok L = true) ->
  run_shifted (threshold cfg - c) fuel E cfg s0 s1 (length L) = run_whh fuel E (with_threshold c cfg) s0 s1 (length L).
Proof. exact shift_lemma. Qed.
Print Assumptions C70_threshold_refuted.

(** In particular it can have the string of every accepted report reported, with its count and weights. *)
Theorem C70_refuted : forall E len bits L vk fuel cfg s0 s1,
  env_ok E -> Forall (good_entry E len bits) L -> (Z.of_nat (length L) + threshold cfg < 2 ^ 64)%Z ->
  cfg_hist cfg = len -> cfg_bits cfg = Some bits -> 0 < cfg_query_batch cfg -> 1 <= bits -> length L <= fuel ->
  uploaded true len bits vk (map e_r0 L) s0 -> uploaded false len bits vk (map e_r1 L) s1 ->
  (2 <= bits -> existsb e_ok L = true /\ Forall (fun e => report_verdict E len vk (e_r0 e) (e_r1 e) (e_ok e)) L) ->
  (bits = 1 -> forallb e_ok L = true) ->
  exists t0 t1 rs, run_shifted (threshold cfg - 1) fuel E cfg s0 s1 (length L) = Ret (t0, t1, rs) /\
    forall e, In e L -> e_ok e = true -> In (exact_result L len (e_alpha e)) rs.
Proof. exact reveal_lemma. Qed.
Print Assumptions C70_refuted.

(** threshold 2, strings 101, 101 and 001: an honest run reports 101; with 1 added to each counter share 001,
    which only one client holds, is reported as well, and the first aggregator holds both *)
Example C70_example : sh_values (sh_run 0) = Some [([true; false; true], [1; 1; 2])]%Z /\
  sh_values (sh_run 1) = Some [([false; false; true], [0; 1; 1]); ([true; false; true], [1; 1; 2])]%Z /\
  paths_eqb (sh_known (sh_run 1)) [[false; false; true]; [true; false; true]] = true.
Proof. exact sh_ok. Qed.
