(** Property C81 (src/bin/driver.rs run_flp_queries): an aggregator alone cannot drop the reports of honest
    clients without being noticed. *)
From Verif Require Import Base Field Util Env Prg Vidpf Merkle Collect Server Driver SpecVidpf SpecLevel SpecWhh Histogram SpecCensor CensorFacts
  ToyEnv ExRun WhhExamples HistExamples CensorExamples.

(** What an aggregator can achieve with its answers to the FLP queries, whatever it answers and whatever the
    proof system: it decides which reports count, as far as the sum of the two verifier shares lets it, and
    nothing else.  The run goes on as if these were the verdicts of an honest run. *)
Theorem C81_exact : forall E who lie len bits L vk cfg fuel s0 s1,
  env_ok E -> Forall (good_entry E len bits) L -> (Z.of_nat (length L) < 2 ^ 64)%Z -> cfg_hist cfg = len -> 0 < cfg_query_batch cfg ->
  uploaded true len bits vk (map e_r0 L) s0 -> uploaded false len bits vk (map e_r1 L) s1 ->
  cfg_bits cfg = Some bits -> 2 <= bits -> length L <= fuel -> existsb e_ok L = true ->
  (forall i e, nth_error L i = Some e -> lied_verdict E len vk who (lie i) (e_r0 e) (e_r1 e) (e_ok e)) ->
  (forall l, 1 <= l -> l + 1 < bits -> exists p, length p = l /\ heavy (threshold cfg) L p = true) ->
  exists t0 t1, run_lying who lie fuel E cfg s0 s1 (length L) = Ret (t0, t1, map (exact_result L len) (filter (heavy (threshold cfg) L) (all_paths bits))).
Proof. exact (fun E who lie len bits L vk cfg fuel s0 s1 Hok Hg Hn Hc Hq => lying_exact E Hok who lie len bits L vk Hg Hn cfg Hc Hq fuel s0 s1). Qed.
Print Assumptions C81_exact.

(** an aggregator that changes nothing: the run of the driver *)
Theorem C81_honest : forall who fuel E cfg s0 s1 n, run_lying who (fun _ v => v) fuel E cfg s0 s1 n = run_whh fuel E cfg s0 s1 n.
Proof. exact lying_same. Qed.
Print Assumptions C81_honest.

(** C81 is false.  With the proof system of the histogram type either aggregator can drop any set D of accepted
    reports by adding 1 to the first entry of its verifier shares of these reports.  The run has the result
    of an honest run in which the clients of D upload nothing. *)
Theorem C81_refuted : forall E who D len bits L vk fuel cfg s0 s1,
  env_ok E -> Forall (good_entry (with_hist E) len bits) L -> (Z.of_nat (length L) < 2 ^ 64)%Z ->
  cfg_hist cfg = len -> cfg_bits cfg = Some bits -> 0 < cfg_query_batch cfg -> 2 <= bits -> length L <= fuel ->
  uploaded true len bits vk (map e_r0 L) s0 -> uploaded false len bits vk (map e_r1 L) s1 ->
  Forall (fun e => report_verdict (with_hist E) len vk (e_r0 e) (e_r1 e) (e_ok e)) L ->
  (forall i e, nth_error L i = Some e -> D i = true -> e_ok e = true) -> existsb e_ok (spared D L) = true ->
  (forall l, 1 <= l -> l + 1 < bits -> exists p, length p = l /\ heavy (threshold cfg) (spared D L) p = true) ->
  let rs := map (exact_result (spared D L) len) (filter (heavy (threshold cfg) (spared D L)) (all_paths bits)) in
  (exists t0 t1, run_lying who (censor D) fuel (with_hist E) cfg s0 s1 (length L) = Ret (t0, t1, rs)) /\
  forall u0 u1, uploaded true len bits vk (map e_r0 (spared D L)) u0 -> uploaded false len bits vk (map e_r1 (spared D L)) u1 ->
    exists t0 t1, run_whh fuel (with_hist E) cfg u0 u1 (length (spared D L)) = Ret (t0, t1, rs).
Proof. exact (fun E who D len bits L vk fuel cfg s0 s1 Hok => censored E Hok who D len bits L vk fuel cfg s0 s1). Qed.
Print Assumptions C81_refuted.

(** What it cannot do without help: to have a report accepted that would be refused it must hit the first entry of the
    other aggregator's verifier share.  Any one answer u is accepted for at most one value of that entry. *)
Theorem C81_guess : forall E len u v v',
  flp_decide (with_hist E) len (add_shares u v) = Some true -> flp_decide (with_hist E) len (add_shares u v') = Some true -> nth 0 v fzero = nth 0 v' fzero.
Proof. exact must_guess. Qed.
Print Assumptions C81_guess.

(** strings 101, 101 and 001, threshold 1: an honest run reports both; the third client is dropped by either aggregator *)
Example C81_example :
  result_is (ce_run (fun _ => false) true) [([false; false; true], [0; 1; 1]); ([true; false; true], [1; 1; 2])]%Z = true /\
  forall who, result_is (ce_run third who) [([true; false; true], [1; 1; 2])]%Z = true.
Proof. exact (conj ce_none ce_results). Qed.
(** the hypotheses of C81_refuted in this case *)
Example C81_refuted_example :
  Forall (good_entry (with_hist tx) 2 3) h_entries /\ Forall (fun e => report_verdict (with_hist tx) 2 ex_vk (e_r0 e) (e_r1 e) (e_ok e)) h_entries /\
  (forall i e, nth_error h_entries i = Some e -> third i = true -> e_ok e = true) /\ existsb e_ok (spared third h_entries) = true /\
  forall l, 1 <= l -> l + 1 < 3 -> exists p, length p = l /\ heavy (threshold (w_cfg 1)) (spared third h_entries) p = true.
Proof. exact (conj (proj1 h_entries_ok) (conj (proj2 h_entries_ok) ce_hypotheses)). Qed.
