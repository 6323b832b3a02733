(** Property C80: plain metrics when the aggregators need not agree on a report (src/bin/driver.rs:
    run_plain_metrics, src/bin/server.rs: plain_metrics_result). *)
From Verif Require Import Base Field Util Env Collect Server Driver Modes Histogram Prio3 SpecMetrics SpecWhh SpecModes SpecHist SpecPrio3 SpecVerdict VerdictFacts VerdictPrio3
  ToyEnv ExRun DriverPropFacts ModesExamples HistExamples Prio3Examples VerdictExamples.

(** The exact outcome, whatever each aggregator makes of each report: the driver compares, batch by batch, only how
    many reports the two rejected.  If the numbers agree it prints the sum of what each has accepted. *)
Theorem C80_exact : forall E cfg vk vs s0 s1, hist_ok (cfg_hist cfg) = true -> 0 < cfg_query_batch cfg -> (Z.of_nat (length vs) < 2 ^ 64)%Z ->
  verdict_pair E (cfg_hist cfg) vk s0 s1 0 vs ->
  if forallb same_number (pieces (cfg_query_batch cfg) vs) then
    exists t0 t1, run_pm E cfg s0 s1 (length vs) = Ret (t0, t1, map (verdict_histogram (cfg_hist cfg)) (pieces (cfg_query_batch cfg) vs))
  else run_pm E cfg s0 s1 (length vs) = Panic PAssert.
Proof. exact run_verdicts. Qed.
Print Assumptions C80_exact.

(** If they agree on every report, the histogram is that of the reports both accept. *)
Theorem C80_agree : forall len vs, (forall v, In v vs -> fst v = None /\ snd v = None \/ exists a b, v = (Some a, Some b) /\ length a = len /\ length b = len) ->
  same_number vs = true /\ verdict_histogram len vs = sum_histogram len (map agreed vs).
Proof. exact agreed_histogram. Qed.
Print Assumptions C80_agree.

(** With Prio3 itself they disagree only on a report whose check passes although the aggregators used different joint
    randomness. *)
Theorem C80_one_sided : forall E, env_ok E -> forall len vk r0 r1 v, verdicts (p3_env E) len vk r0 r1 v -> (fst v = None <-> snd v <> None) ->
  exists n0 q0 i0 n1 q1 i1, r0 = RSPrio3 n0 q0 i0 /\ r1 = RSPrio3 n1 q1 i1 /\ passed_apart E len vk n0 n1 i0 i1.
Proof. exact one_sided. Qed.
Print Assumptions C80_one_sided.

(** A report that one aggregator rejects can be counted all the same. *)
Theorem C80_refuted : ~ (forall E, env_ok E -> forall cfg vk vs s0 s1 t0 t1 ts, hist_ok (cfg_hist cfg) = true -> 0 < cfg_query_batch cfg -> (Z.of_nat (length vs) < 2 ^ 64)%Z ->
  verdict_pair (p3_env E) (cfg_hist cfg) vk s0 s1 0 vs -> run_pm (p3_env E) cfg s0 s1 (length vs) = Ret (t0, t1, ts) ->
  ts = map (sum_histogram (cfg_hist cfg)) (pieces (cfg_query_batch cfg) (map agreed vs))).
Proof. exact k_refuted. Qed.
Print Assumptions C80_refuted.

(** Two reports, the first accepted by the leader only, the second by the helper only. *)
Example C80_counted : verdict_pair (p3_env y4) 4 ex_vk k_s0 k_s1 0 k_verdicts /\ map agreed k_verdicts = [None; None] /\
  exists t0 t1 h, run_pm (p3_env y4) y_cfg k_s0 k_s1 2 = Ret (t0, t1, [(h, 1%Z)]) /\ nth 0 h 0%Z <> 0%Z.
Proof. exact (conj k_pair (conj eq_refl k_hist)). Qed.
(** The first of them alone stops the driver. *)
Example C80_stopped : run_pm (p3_env y4) y_cfg k_s0 k_s1 1 = Panic PAssert.
Proof. exact k_stops. Qed.
(** The first is one for C80_one_sided. *)
Example C80_apart : exists n0 q0 i0 n1 q1 i1, k_report k_first k_q0 true = RSPrio3 n0 q0 i0 /\ k_report k_first k_q0 false = RSPrio3 n1 q1 i1 /\ passed_apart y4 4 ex_vk n0 n1 i0 i1.
Proof. exact (C80_one_sided y4 y4_ok 4 ex_vk _ _ _ (proj1 k_apart) (conj (fun H => False_ind _ (eq_ind (Some (p3_leader_x y4 4 k_first)) (fun o => match o with Some _ => True | None => False end) I None H)) (fun H => False_ind _ (H eq_refl)))). Qed.
