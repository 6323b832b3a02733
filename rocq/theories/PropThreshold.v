(** Properties C56, C58 (src/bin/driver.rs:394-400, 473-479, src/lib.rs:24-32): computations with f64. *)
From Verif Require Import Base Field Util Env Prg Vidpf Merkle Collect Server Driver SpecVidpf SpecCollect SpecServer SpecDriver SpecLevel SpecWhh WhhExamples
  Threshold SpecThreshold ThresholdRun.
From Coq Require Import ZArith.
From Coq Require Import Floats.SpecFloat.

(** C56: the integer threshold is the fraction of the number of clients, rounded down or up ... *)
Theorem C56_bounds : forall m k n c, sensible m k n ->
  (share_le m k n c -> (f64_threshold (fraction m k) n <= c)%Z) /\ (share_ge m k n c -> (c <= f64_threshold (fraction m k) n)%Z).
Proof. exact C56_bounds_lemma. Qed.
Print Assumptions C56_bounds.
(** ... and down, hence below what was configured, for every share whose fractional part is positive and at
    most one half.  ("the strings that more than a threshold of clients hold", config.rs:37, is false.) *)
Theorem C56_refuted : forall m k n c, sensible m k n -> share_gt m k n c -> share_le_half m k n c -> f64_threshold (fraction m k) n = c.
Proof. exact C56_down_lemma. Qed.
Print Assumptions C56_refuted.
(** The conversion to an integer cuts off and saturates. *)
Theorem C56_conversion : forall m e c,
  (0 <= e -> f64_as_u64 (S754_finite false m e) = c <-> c < 2 ^ 64 - 1 /\ Zpos m * 2 ^ e = c \/ c = 2 ^ 64 - 1 /\ c <= Zpos m * 2 ^ e)%Z /\
  (e < 0 -> f64_as_u64 (S754_finite false m e) = c <->
     c < 2 ^ 64 - 1 /\ c * 2 ^ (- e) <= Zpos m < (c + 1) * 2 ^ (- e) \/ c = 2 ^ 64 - 1 /\ c * 2 ^ (- e) <= Zpos m)%Z.
Proof. exact C56_conversion_lemma. Qed.
Print Assumptions C56_conversion.
(** the other values an f64 can have: only a positive number makes a difference *)
Theorem C56_rest : forall n, (1 <= n < 2 ^ 53)%Z ->
  f64_threshold S754_nan n = 0%Z /\ f64_threshold (S754_infinity false) n = (2 ^ 64 - 1)%Z /\ f64_threshold (S754_infinity true) n = 0%Z /\
  (forall s, f64_threshold (S754_zero s) n = 0%Z) /\ (forall m e, f64_threshold (S754_finite true m e) n = 0%Z).
Proof. exact C56_rest_lemma. Qed.
Print Assumptions C56_rest.
(** In a complete run: every string held by at least the configured fraction of all uploads is printed;
    every printed string is held by more than that fraction less one upload; and in the case of C56_refuted
    the strings held by exactly c uploads, fewer than the fraction, are printed as well. *)
Theorem C56_run : forall E len bits vk clients reports chs fuel cfg s0 s1 m k,
  env_ok E -> 1 <= bits -> mapM (gen_report E len) clients = Ret reports ->
  Forall (good_client E len bits vk) clients -> Forall (good_choice E len vk reports) chs ->
  cfg_hist cfg = len -> cfg_bits cfg = Some bits -> 0 < cfg_query_batch cfg -> 0 < cfg_add_batch cfg -> hist_ok len = true -> clients <> [] ->
  length chs <= fuel -> running 0 bits s0 -> (exists id, id <> 0%Z /\ running id bits s1) ->
  (2 <= bits -> existsb counts chs = true) -> (bits = 1 -> forallb counts chs = true) ->
  (forall l, 1 <= l -> l + 1 < bits -> exists p, length p = l /\ popular (threshold cfg) (ballots clients chs) p = true) ->
  sensible m k (Z.of_nat (length chs)) -> cfg_thr cfg = f64_threshold (fraction m k) (Z.of_nat (length chs)) ->
  exists t0 t1 printed, main_whh fuel E cfg clients vk chs s0 s1 = Ret (t0, t1, printed) /\
    forall p, length p = bits -> let held := tally (ballots clients chs) p in
      ((1 <= held)%Z -> share_le m k (Z.of_nat (length chs)) held -> In (tally_result (ballots clients chs) len p) printed) /\
      (In p (map res_path printed) -> (1 <= held)%Z /\ ~ share_ge m k (Z.of_nat (length chs)) (held + 1)) /\
      (forall c, (1 <= c)%Z -> share_gt m k (Z.of_nat (length chs)) c -> share_le_half m k (Z.of_nat (length chs)) c ->
         (In p (map res_path printed) <-> (c <= held)%Z)).
Proof. exact C56_run_lemma. Qed.
Print Assumptions C56_run.
(** 0.3 of the 5 uploads of C22_example is 1.5, the threshold is 1, and 001, held by one of the five, is
    printed (third part of C22_example); 0.5 gives 2.  0.29 of 100 is 28, not 29: the product is rounded to
    a number just below 29. *)
Example C56_example :
  sensible 5404319552844595 54 5 /\ share_gt 5404319552844595 54 5 1 /\ share_le_half 5404319552844595 54 5 1 /\
  length w_choices = 5 /\ f64_threshold f64_30 5 = 1%Z /\ f64_threshold f64_50 5 = 2%Z /\ f64_threshold f64_29 100 = 28%Z /\
  tally (ballots w_clients w_choices) [false; false; true] = 1%Z.
Proof. exact C56_example_proof. Qed.

(** C58: below 2^52 buckets the chunk length of plain metrics is the integer square root ... *)
Theorem C58_sqrt : forall n, (0 <= n < 2 ^ 52)%Z ->
  let c := plain_chunk_length n in (0 <= c /\ c * c <= n < (c + 1) * (c + 1))%Z.
Proof. exact C58_lemma. Qed.
Print Assumptions C58_sqrt.
(** ... in particular for every number of buckets the aggregators accept, where it is positive *)
Theorem C58_model : forall len, hist_ok len = true -> plain_chunk_length (Z.of_nat len) = Z.of_nat (chunk_length_plain len) /\ 1 <= chunk_length_plain len.
Proof. exact C58_model_lemma. Qed.
Print Assumptions C58_model.
(** ... but not for every usize *)
Theorem C58_refuted : exists n, (n < 2 ^ 64)%Z /\ let c := plain_chunk_length n in (n < c * c)%Z.
Proof. exact C58_refuted_lemma. Qed.
Print Assumptions C58_refuted.
Example C58_example : plain_chunk_length 99 = 9%Z /\ plain_chunk_length 100 = 10%Z /\ plain_chunk_length 0 = 0%Z.
Proof. repeat split. Qed.
