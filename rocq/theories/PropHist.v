(** Properties C74 to C76 (src/lib.rs:63-131, src/collect.rs:244-337, src/bin/driver.rs:140-192): the proof
    system of the histogram type, complete runs with it, and weights chosen after the joint randomness. *)
From Verif Require Import Base Field Util Env Vidpf Collect Server Driver PrimeFacts Histogram HistFacts HistSound HistRun HistGen HistForge
  Modes SpecVidpf SpecCollect SpecServer SpecLevel SpecWhh SpecMetrics SpecModes SpecHist ToyEnv ExRun WhhExamples MetricsExamples ModesExamples HistExamples.
From Coq Require Import Znumtheory Permutation.
Local Open Scope nat_scope.

(** C74: the order of the field is a prime *)
Theorem C74_prime : prime P.
Proof. exact P_prime. Qed.
Print Assumptions C74_prime.

(** Below c is the chunk length, 2 in the Mastic modes and the square root of len in plain metrics.
    Completeness: for a unit vector, any randomness of the prover and any joint randomness, the prover's proof
    is accepted at every query point that is not an interpolation point, however input and proof are shared. *)
Theorem C74_complete : forall c len x pr j0 j1 r proof x0 x1 p0 p1, 0 < c -> hist_ok len = true ->
  unit_vector len x -> hist_prove c len x pr [j0; j1] = Some proof -> ~ on_domain c len r -> shares_of x0 x1 x -> shares_of p0 p1 proof ->
  decides c len x0 x1 p0 p1 [j0; j1] [r] true.
Proof. exact (fun c len x pr j0 j1 r proof x0 x1 p0 p1 Hc Hlen => complete c len Hc Hlen x pr j0 j1 r proof x0 x1 p0 p1). Qed.
Print Assumptions C74_complete.

(** the prover returns a proof exactly if it gets an input, randomness and joint randomness of the right sizes *)
Theorem C74_prover : forall c len x pr jr, (exists proof, hist_prove c len x pr jr = Some proof) <-> length x = len /\ length pr = 2 * c /\ length jr = 2.
Proof. exact prover_total. Qed.
Print Assumptions C74_prover.

(** The prover's proof for any input, valid or not: it is accepted exactly if the two checks, weighted by the
    joint randomness, cancel. *)
Theorem C74_checks : forall c len x pr j0 j1 r proof x0 x1 p0 p1, 0 < c -> hist_ok len = true ->
  hist_prove c len x pr [j0; j1] = Some proof -> ~ on_domain c len r -> shares_of x0 x1 x -> shares_of p0 p1 proof ->
  decides c len x0 x1 p0 p1 [j0; j1] [r] (feqb (checks len x j0 j1) fzero).
Proof. exact honest_checks. Qed.
Print Assumptions C74_checks.

(** Soundness: x is fixed and not a unit vector, the proof may depend on the joint randomness.  Of all the
    triples of two joint random values from A and B and a query point from C, at most this many are accepted:
    with all field elements in A, B and C a fraction of less than (len + 2 + 4 n) / P for n chunks. *)
Theorem C74_sound : forall c len x (proof : fld -> fld -> list fld) A B C T, 0 < c -> hist_ok len = true -> length x = len -> ~ unit_vector len x ->
  NoDup A -> NoDup B -> NoDup C -> NoDup T ->
  (forall j0 j1 r, In (j0, j1, r) T -> In j0 A /\ In j1 B /\ In r C /\ accepted c len x (proof j0 j1) j0 j1 r) ->
  length T <= len * (length B * length C) + 2 * (length A * length C) + 2 * (2 * ((len + c - 1) / c) - 1) * (length A * length B).
Proof. exact sound_bound. Qed.
Print Assumptions C74_sound.

(** A proof whose first entry was changed, as the driver does to simulate a misbehaving client: accepted exactly at the
    roots of the polynomial of the second wire ... *)
Theorem C74_spoilt : forall c len x pr j0 j1 r proof d w x0 x1 p0 p1 proof', 0 < c -> hist_ok len = true ->
  unit_vector len x -> hist_prove c len x pr [j0; j1] = Some proof -> ~ on_domain c len r -> d <> fzero -> second_wire c len pr x w ->
  shares_of x0 x1 x -> shares_of p0 p1 proof' -> (exists a t, proof = a :: t /\ proof' = fadd a d :: t) ->
  decides c len x0 x1 p0 p1 [j0; j1] [r] (feqb (poly_eval w r) fzero).
Proof. exact (fun c len x pr j0 j1 r proof d w x0 x1 p0 p1 proof' Hc Hlen => spoilt c len Hc Hlen x pr j0 j1 r proof d w x0 x1 p0 p1 proof'). Qed.
Print Assumptions C74_spoilt.

(** ... so at fewer points than twice the number of chunks, unless the prover drew a zero *)
Theorem C74_spoilt_few : forall c len x pr j0 j1 proof d S, 0 < c -> hist_ok len = true -> unit_vector len x ->
  hist_prove c len x pr [j0; j1] = Some proof -> nth 1 pr fzero <> fzero -> d <> fzero ->
  NoDup S -> (forall r, In r S -> exists a t, proof = a :: t /\ accepted c len x (fadd a d :: t) j0 j1 r) -> length S <= 2 * ((len + c - 1) / c) - 1.
Proof. exact spoilt_few. Qed.
Print Assumptions C74_spoilt_few.

(** three buckets in chunks of two: the sizes; a unit vector is accepted; (1, 1, 0) with the prover's proof and a spoilt proof
    are refused, an interpolation point is an error; with second joint random value 0 anything passes *)
Example C74_example :
  (ncalls 2 3 = 2 /\ 2 ^ wire_log 2 3 = 4 /\ proof_len 2 3 = 11) /\
  (is_b (verdict 2 3 (one_hot 3 1) (proof_for 2 3 (one_hot 3 1) (f 9) (f 10)) (f 9) (f 10) (f 11)) true &&
   is_b (verdict 2 3 [f 1; f 1; f 0] (proof_for 2 3 [f 1; f 1; f 0] (f 9) (f 10)) (f 9) (f 10) (f 11)) false &&
   is_b (verdict 2 3 (one_hot 3 1) (spoil (proof_for 2 3 (one_hot 3 1) (f 9) (f 10))) (f 9) (f 10) (f 11)) false &&
   is_none (verdict 2 3 (one_hot 3 1) (proof_for 2 3 (one_hot 3 1) (f 9) (f 10)) (f 9) (f 10) (root 2))) = true /\
  is_b (verdict 2 3 [f 1; f 1; f 0] (proof_for 2 3 [f 1; f 1; f 0] (f 9) fzero) (f 9) fzero (f 11)) true = true.
Proof. exact (conj h_sizes (conj h_verdicts h_blind)). Qed.

(** C75: the whole run of C22 with this proof system: nothing is assumed about proofs, only that no query point
    is an interpolation point, and for the spoilt uploads that it is not a root of the second wire. *)
Theorem C75_main : forall E len bits vk clients reports chs fuel cfg s0 s1, env_ok E -> hist_ok len = true ->
  1 <= bits -> mapM (gen_report (with_hist E) len) clients = Ret reports ->
  Forall (fair_client E len bits vk) clients -> Forall (fair_choice E len vk clients) chs ->
  cfg_hist cfg = len -> cfg_bits cfg = Some bits -> 0 < cfg_query_batch cfg -> 0 < cfg_add_batch cfg -> clients <> [] ->
  length chs <= fuel -> (Z.of_nat (length chs) < 2 ^ 64)%Z -> running 0 bits s0 -> (exists id, id <> 0%Z /\ running id bits s1) ->
  (2 <= bits -> existsb counts chs = true) -> (bits = 1 -> forallb counts chs = true) ->
  (forall l, 1 <= l -> l + 1 < bits -> exists p, length p = l /\ popular (threshold cfg) (ballots clients chs) p = true) ->
  exists t0 t1, main_whh fuel (with_hist E) cfg clients vk chs s0 s1 =
    Ret (t0, t1, map (tally_result (ballots clients chs) len) (filter (popular (threshold cfg) (ballots clients chs)) (all_paths bits))).
Proof. exact (fun E len bits vk clients reports chs fuel cfg s0 s1 Hok Hlen => hist_main E Hok len Hlen bits vk clients reports chs fuel cfg s0 s1). Qed.
Print Assumptions C75_main.

(** the same for attribute-based metrics, C52_main with this proof system *)
Theorem C75_attributes : forall E len bits vk clients reports chs samples order fuel cfg s0 s1, env_ok E -> hist_ok len = true ->
  1 <= bits -> mapM (gen_report (with_hist E) len) clients = Ret reports ->
  Forall (fair_client E len bits vk) clients -> Forall (fair_choice E len vk clients) chs ->
  cfg_hist cfg = len -> 0 < cfg_query_batch cfg -> 0 < cfg_add_batch cfg -> clients <> [] -> length chs <= fuel ->
  running 0 bits s0 -> (exists id, id <> 0%Z /\ running id bits s1) ->
  (forall s, In s samples -> 1 <= s < length clients) -> (forall l, Permutation (order l) l) ->
  exists t0 t1 attrs, main_abm fuel (with_hist E) cfg clients vk chs samples order s0 s1 =
    Ret (t0, t1, map (fun e => tally_table len attrs (in_table (dbg E) clients (firstn e chs))) (batch_ends (length chs) (cfg_query_batch cfg))) /\
    NoDup attrs /\ forall a, In a attrs <-> exists i cl, In i samples /\ nth_error clients i = Some cl /\ a = cl_alpha cl.
Proof. exact (fun E len bits vk clients reports chs samples order fuel cfg s0 s1 Hok Hlen => hist_tables E Hok len Hlen bits vk clients reports chs samples order fuel cfg s0 s1). Qed.
Print Assumptions C75_attributes.

(** the report of a client that spoils its proof (driver.rs: 1337 is added to the first entry) is refused by the
    aggregators unless the query point is a root of the second wire *)
Theorem C75_spoilt : forall E len vk cl r w, env_ok E -> hist_ok len = true -> gen_report (with_hist E) len cl = Ret r ->
  length (cl_seed0 cl) = 16 -> length (cl_seed1 cl) = 16 -> cl_alpha cl <> [] ->
  ~ on_domain chunk len (query_point E len vk cl) -> second_wire chunk len (cl_prove_rand cl) (one_hot len (cl_bucket cl)) w ->
  exists r1', tamper false (snd (to_shares r)) = Ret r1' /\
  report_verdict (with_hist E) len vk (fst (to_shares r)) r1' (feqb (poly_eval w (query_point E len vk cl)) fzero).
Proof. exact (fun E len vk cl r w Hok Hlen => spoilt_verdict E Hok len Hlen vk cl r w). Qed.
Print Assumptions C75_spoilt.

(** report generation with this proof system: the clients of the driver draw prove_rand_len() random values, and
    with exactly that many no unwrap fails; the only other failure is a bucket out of range *)
Theorem C75_generated : forall E len cl, env_ok E -> length (cl_seed0 cl) = 16 -> length (cl_seed1 cl) = 16 ->
  ((exists r, gen_report (with_hist E) len cl = Ret r) <-> cl_bucket cl < len /\ length (cl_prove_rand cl) = flp_prove_rand_len (with_hist E) len) /\
  (forall k, gen_report (with_hist E) len cl = Panic k -> k = PUnwrap).
Proof. exact generated. Qed.
Print Assumptions C75_generated.
Example C75_generated_example :
  Forall (fun cl => length (cl_seed0 cl) = 16 /\ length (cl_seed1 cl) = 16 /\ cl_bucket cl < 2 /\ length (cl_prove_rand cl) = flp_prove_rand_len (with_hist tx) 2) h_clients /\
  h_clients <> [].
Proof. split; [|discriminate]. repeat (constructor; [cbn; repeat split; auto|]). constructor. Qed.

(** the uploads of C22_example with this proof system: all hypotheses, the result, and the tables of C52_example in one of
    the two orders of the attributes *)
Example C75_example :
  mapM (gen_report (with_hist tx) 2) h_clients = Ret h_reports /\ Forall (fair_client tx 2 3 ex_vk) h_clients /\
  Forall (fair_choice tx 2 ex_vk h_clients) w_choices /\
  result_is (main_whh 20 (with_hist tx) (w_cfg 2) h_clients ex_vk w_choices (fst w_servers) (snd w_servers)) [([true; false; true], [1; 2; 3])]%Z = true /\
  abm_eqb h_tables [[([true; false; true], [1; 1]); ([false; false; true], [0; 0])];
                    [([true; false; true], [1; 2]); ([false; false; true], [0; 1])];
                    [([true; false; true], [1; 2]); ([false; false; true], [0; 1])]]%Z ||
  abm_eqb h_tables [[([false; false; true], [0; 0]); ([true; false; true], [1; 1])];
                    [([false; false; true], [0; 1]); ([true; false; true], [1; 2])];
                    [([false; false; true], [0; 1]); ([true; false; true], [1; 2])]]%Z = true.
Proof. exact (conj h_reports_ret (conj h_clients_fair (conj h_choices_fair (conj h_run h_tables_ok)))). Qed.

(** C76: the joint randomness depends on the root seeds and the nonce alone, so a client knows it before it
    chooses its weights.  It puts -j1/j0^(i+1) into bucket i: not a unit vector, and accepted. *)
Theorem C76_refuted : forall E len bits vk cl i, env_ok E -> hist_ok len = true ->
  1 <= bits -> fair_client E len bits vk cl -> length (cl_prove_rand cl) = arity chunk -> i < len ->
  let j0 := nth 0 (prover_joint_rand (with_hist E) len cl) fzero in let j1 := nth 1 (prover_joint_rand (with_hist E) len cl) fzero in
  j0 <> fzero -> fadd (fpow j0 (i + 1)) j1 <> fzero ->
  exists t e, fmul (fpow j0 (i + 1)) t = fneg j1 /\ t <> fone /\ ~ unit_vector len (single len i t) /\
    forged_entry E len cl (single len i t) e /\ good_entry (with_hist E) len bits e /\ report_verdict (with_hist E) len vk (e_r0 e) (e_r1 e) true.
Proof. exact (fun E len bits vk cl i Hok Hlen => forged_single E Hok len Hlen bits vk cl i). Qed.
Print Assumptions C76_refuted.

(** what the aggregators accept from a client that follows the protocol except for its weights: exactly the
    weights for which the two checks cancel *)
Theorem C76_characterisation : forall E len bits vk cl x e, env_ok E -> hist_ok len = true ->
  forged_entry E len cl x e -> fair_client E len bits vk cl -> 1 <= bits -> length x = len ->
  good_entry (with_hist E) len bits e /\
  report_verdict (with_hist E) len vk (e_r0 e) (e_r1 e)
    (feqb (checks len x (nth 0 (prover_joint_rand (with_hist E) len cl) fzero) (nth 1 (prover_joint_rand (with_hist E) len cl) fzero)) fzero).
Proof. exact (fun E len bits vk cl x e Hok Hlen => forged_facts E Hok len Hlen bits vk cl x e). Qed.
Print Assumptions C76_characterisation.

(** ... and a run counts them as they are: the sums contain x *)
Theorem C76_run : forall E len bits vk cl x e L fuel cfg s0 s1, env_ok E -> hist_ok len = true ->
  forged_entry E len cl x e -> fair_client E len bits vk cl -> length x = len ->
  checks len x (nth 0 (prover_joint_rand (with_hist E) len cl) fzero) (nth 1 (prover_joint_rand (with_hist E) len cl) fzero) = fzero ->
  Forall (good_entry (with_hist E) len bits) L -> Forall (fun e => report_verdict (with_hist E) len vk (e_r0 e) (e_r1 e) (e_ok e)) L ->
  (Z.of_nat (S (length L)) < 2 ^ 64)%Z -> cfg_hist cfg = len -> cfg_bits cfg = Some bits -> 0 < cfg_query_batch cfg -> 2 <= bits -> S (length L) <= fuel ->
  uploaded true len bits vk (map e_r0 (e :: L)) s0 -> uploaded false len bits vk (map e_r1 (e :: L)) s1 ->
  (forall l, 1 <= l -> l + 1 < bits -> exists p, length p = l /\ heavy (threshold cfg) (e :: L) p = true) ->
  exists t0 t1, run_whh fuel (with_hist E) cfg s0 s1 (S (length L)) =
    Ret (t0, t1, map (exact_result (e :: L) len) (filter (heavy (threshold cfg) (e :: L)) (all_paths bits))).
Proof. exact (fun E len bits vk cl x e L fuel cfg s0 s1 Hok Hlen => forged_run E Hok len Hlen bits vk cl x e L fuel cfg s0 s1). Qed.
Print Assumptions C76_run.

(** client 1 of the run above uploads a second report, with t = -j1/j0 in bucket 0: the hypotheses of the three
    theorems, and the result, in which the first bucket is 1 + t instead of 2 *)
Example C76_example : (nonzero (g_j 0) && nonzero (fadd (fpow (g_j 0) 1) (g_j 1)) && negb (feqb g_t fone)) = true /\
  feqb (checks 2 g_x (g_j 0) (g_j 1)) fzero = true /\
  exists e, forged_entry tx 2 g_cl g_x e /\ result_is (g_run e) [([true; false; true], [fval (fadd fone g_t); 1; 3])]%Z = true.
Proof. exact (conj g_facts (conj g_cancel g_counted)). Qed.
