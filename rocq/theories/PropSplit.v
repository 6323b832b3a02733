(** Property C78 (src/collect.rs:284-337): the two aggregators check a report with the same joint randomness. *)
From Verif Require Import Base Field Util Env Vidpf Collect Server Driver Histogram HistFacts HistSplit
  SpecVidpf SpecCollect SpecServer SpecLevel SpecWhh SpecHist ToyEnv ExRun WhhExamples HistExamples SplitExamples.

(** False of the code: each aggregator recomputes its own part and takes the other one from the report, and the
    two results are never compared.  If a client advertises parts (q0, q1) that lead to different second values,
    it gets any weights x at all accepted, with proof shares chosen before the verify key. *)
Theorem C78_refuted : forall E len bits cl x q0 q1, env_ok E -> hist_ok len = true ->
  1 <= bits -> length (cl_seed0 cl) = 16 -> length (cl_seed1 cl) = 16 -> length (cl_alpha cl) = bits -> length x = len ->
  nth 1 (joint_of_first E cl q1) fzero <> nth 1 (joint_of_second E cl q0) fzero ->
  exists e, advertised E cl x q0 q1 e /\ good_entry (with_hist E) len bits e /\
  forall vk, ~ on_domain chunk len (query_point E len vk cl) -> report_verdict (with_hist E) len vk (e_r0 e) (e_r1 e) true.
Proof. exact (fun E len bits cl x q0 q1 Hok Hlen => split_any E Hok len Hlen bits cl x q0 q1). Qed.
Print Assumptions C78_refuted.

(** the proof system itself: two verifiers with different second joint random values accept any input *)
Theorem C78_query : forall c len x0 x1 a0 a1 b0 b1, 0 < c -> hist_ok len = true -> length x0 = len -> length x1 = len -> a1 <> b1 ->
  exists p0 p1, forall r, ~ on_domain c len r ->
  exists v0 v1, hist_query c len x0 p0 [r] [a0; a1] 2 = Some v0 /\ hist_query c len x1 p1 [r] [b0; b1] 2 = Some v1 /\ hist_decide c (add_shares v0 v1) = Some true.
Proof. exact (fun c len x0 x1 a0 a1 b0 b1 Hc Hlen => split_accept c len Hc Hlen x0 x1 a0 a1 b0 b1). Qed.
Print Assumptions C78_query.

(** a run counts such a report with the weights x *)
Theorem C78_run : forall E len bits vk cl x q0 q1 e L fuel cfg s0 s1, env_ok E ->
  advertised E cl x q0 q1 e -> good_entry (with_hist E) len bits e -> report_verdict (with_hist E) len vk (e_r0 e) (e_r1 e) true ->
  Forall (good_entry (with_hist E) len bits) L -> Forall (fun e => report_verdict (with_hist E) len vk (e_r0 e) (e_r1 e) (e_ok e)) L ->
  (Z.of_nat (S (length L)) < 2 ^ 64)%Z -> cfg_hist cfg = len -> cfg_bits cfg = Some bits -> 0 < cfg_query_batch cfg -> 2 <= bits -> S (length L) <= fuel ->
  uploaded true len bits vk (map e_r0 (e :: L)) s0 -> uploaded false len bits vk (map e_r1 (e :: L)) s1 ->
  (forall l, 1 <= l -> l + 1 < bits -> exists p, length p = l /\ heavy (threshold cfg) (e :: L) p = true) ->
  exists t0 t1, run_whh fuel (with_hist E) cfg s0 s1 (S (length L)) =
    Ret (t0, t1, map (exact_result (e :: L) len) (filter (heavy (threshold cfg) (e :: L)) (all_paths bits))).
Proof. exact (fun E len bits vk cl x q0 q1 e L fuel cfg s0 s1 Hok => split_run E Hok len bits vk cl x q0 q1 e L fuel cfg s0 s1). Qed.
Print Assumptions C78_run.

(** what holds: with the parts the client's own seeds give, both aggregators use the prover's joint randomness ... *)
Theorem C78_right : forall E len cl,
  joint_of_first E cl (xof_bytes E (cl_seed1 cl) (repeat 0%N 16) (1%N :: cl_nonce cl) 16) = prover_joint_rand (with_hist E) len cl /\
  joint_of_second E cl (xof_bytes E (cl_seed0 cl) (repeat 0%N 16) (0%N :: cl_nonce cl) 16) = prover_joint_rand (with_hist E) len cl.
Proof. exact split_right. Qed.
Print Assumptions C78_right.

(** ... and whenever the two aggregators use the same, a report they accept is accepted in the sense of
    C74_sound, for the sum of the two weight shares and the sum of the two proof shares *)
Theorem C78_same : forall E len vk nonce k0 k1 p0 p1 jr0 jr1 j0 j1, env_ok E ->
  joint_rand (with_hist E) true len nonce k0 jr0 = [j0; j1] -> joint_rand (with_hist E) false len nonce k1 jr1 = [j0; j1] ->
  report_verdict (with_hist E) len vk (RSMastic nonce k0 p0 jr0) (RSMastic nonce k1 p1 jr1) true ->
  accepted chunk len (add_shares (beta_share (with_hist E) len k0) (beta_share (with_hist E) len k1)) (add_shares p0 p1) j0 j1 (nth 0 (query_rand (with_hist E) len vk nonce) fzero).
Proof. exact (fun E len vk nonce k0 k1 p0 p1 jr0 jr1 j0 j1 Hok => same_joint E Hok len vk nonce k0 k1 p0 p1 jr0 jr1 j0 j1). Qed.
Print Assumptions C78_same.

(** client 1 of C75_example advertises a wrong part for the first aggregator and uploads the weights (5, -3) at
    101: the hypotheses hold, and the run reports 1 + 5 and 1 - 3 there *)
Example C78_example : (feqb (t_first 1) (t_second 1) = false /\ off_domain ex_vk g_cl = true) /\
  exists e, advertised tx g_cl t_x t_q0 t_q1 e /\ result_is (g_run e) [([true; false; true], [6; fval (fneg (of_nat 2)); 3])]%Z = true.
Proof. exact (conj (conj t_differ t_off) t_counted). Qed.
