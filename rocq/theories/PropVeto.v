(** Property C87 (src/bin/driver.rs:340-385, src/collect.rs:244-313): in weighted heavy hitters one aggregator cannot overturn the
    outcome of the FLP check of a report, if the driver, the clients and the other aggregator follow the protocol. *)
From Verif Require Import Base Field Util Env Prg Vidpf Merkle Collect Server Driver Sched System SpecVidpf SpecCollect SpecLevel SpecWhh SpecTamper SpecVeto ToyEnv ExRun WhhExamples VetoFacts VetoExamples.

(** C87 is false.  Either aggregator replaces its share v of the verifier of the upload at position i by any [lie i v].  If the driver's
    decision about each upload is then [ok i], the run ends normally and prints exactly the heavy hitters and the histograms of the
    uploads at the positions in [ok]: valid uploads it does not want are left out, and uploads with wrong FLP proofs, for which it
    cancels what their proofs miss, are counted.  Every key is as in C22_main, so nothing later in the run notices. *)
Theorem C87_refuted : forall E len bits vk clients reports chs who lie ok fuel cfg s0 s1,
  env_ok E -> 2 <= bits -> mapM (gen_report E len) clients = Ret reports ->
  Forall (good_client E len bits vk) clients -> Forall (good_choice E len vk reports) chs ->
  (forall i ch r0 r1, nth_error chs i = Some ch -> make_upload reports ch = Ret (r0, r1) -> lied_verdict E len vk who (lie i) r0 r1 (ok i)) ->
  cfg_hist cfg = len -> cfg_bits cfg = Some bits -> 0 < cfg_query_batch cfg -> 0 < cfg_add_batch cfg -> hist_ok len = true -> clients <> [] ->
  length chs <= fuel -> (Z.of_nat (length chs) < 2 ^ 64)%Z -> running 0 bits s0 -> (exists id, id <> 0%Z /\ running id bits s1) ->
  (exists i, i < length chs /\ ok i = true) ->
  (forall l, 1 <= l -> l + 1 < bits -> exists p, length p = l /\ popular (threshold cfg) (ballots_at ok clients chs) p = true) ->
  exists t0 t1, tampered E who (lie_verifiers lie) (main_whh_p fuel E cfg clients vk chs) s0 s1 =
    Ret (t0, t1, map (tally_result (ballots_at ok clients chs) len) (filter (popular (threshold cfg) (ballots_at ok clients chs)) (all_paths bits))).
Proof. exact verdicts_overturned. Qed.
Print Assumptions C87_refuted.
(** With strings of one bit no answer to the FLP queries, true or not, has any effect: the driver does not ask for them. *)
Theorem C87_one_bit : forall E who alter fuel cfg clients vk chs s0 s1, about_queries alter -> cfg_bits cfg = Some 1 ->
  tampered E who alter (main_whh_p fuel E cfg clients vk chs) s0 s1 = main_whh fuel E cfg clients vk chs s0 s1.
Proof. exact one_bit_unchecked. Qed.
Print Assumptions C87_one_bit.

(** The run of C22_example with threshold 2, which prints 101 with [1; 2; 3]: the first upload, for bucket 1, is left out and the fifth
    one, for bucket 0 with a wrong FLP proof, is counted. *)
Example C87_example : forall who, ve_print (ve_run who) = Some [([true; false; true], [2; 1; 3])]%Z.
Proof. exact ve_example. Qed.
(** Answers of the wrong kind to the FLP queries with one-bit strings, where the upload with the wrong proof is counted anyway. *)
Example C87_one_bit_example : forall who, ve_print (vo_run who) = Some [([true], [2; 1; 3])]%Z.
Proof. exact vo_example. Qed.
