(** Property C82 (src/bin/driver.rs:246-537, 752-768): apart from its own report shares, an aggregator learns
    from the requests of an honest driver only the FLP verdicts and which prefixes are heavy. *)
From Verif Require Import Base Field Util Env Prg Vidpf Merkle Collect Server Driver SpecVidpf SpecTree SpecLevel SpecWhh SpecPrg Sched System SpecView
  DriverPropFacts ToyEnv ExRun WhhExamples ViewFacts ViewExamples.

(** The requests of a complete run.  Both aggregators get the same ones, and [script] writes them down from the
    verdicts, the heavy prefixes, the string length and the batch size.  The state of each aggregator at the end is
    what these requests make of its state at the start. *)
Theorem C82_view : forall E len bits L vk fuel cfg s0 s1,
  env_ok E -> Forall (good_entry E len bits) L -> (Z.of_nat (length L) < 2 ^ 64)%Z ->
  cfg_hist cfg = len -> cfg_bits cfg = Some bits -> 0 < cfg_query_batch cfg -> 1 <= bits -> length L <= fuel ->
  uploaded true len bits vk (map e_r0 L) s0 -> uploaded false len bits vk (map e_r1 L) s1 ->
  (2 <= bits -> existsb e_ok L = true /\ Forall (fun e => report_verdict E len vk (e_r0 e) (e_r1 e) (e_ok e)) L) ->
  (bits = 1 -> forallb e_ok L = true) ->
  (forall l, 1 <= l -> l + 1 < bits -> exists p, length p = l /\ heavy (threshold cfg) L p = true) ->
  let qs := script (cfg_query_batch cfg) bits (map e_ok L) (heavy (threshold cfg) L) in
  asked E (run_whh_p fuel E cfg (length L)) s0 s1 = map both qs /\
  exists rs, run_whh fuel E cfg s0 s1 (length L) = Ret (fst (handle_all E s0 qs), fst (handle_all E s1 qs), rs).
Proof. exact view_lemma. Qed.
Print Assumptions C82_view.

(** A run that breaks off because no prefix of l bits is heavy (C27): the crawl at that level is the last request. *)
Theorem C82_broken_off : forall E len bits L vk fuel cfg s0 s1 l,
  env_ok E -> Forall (good_entry E len bits) L -> (Z.of_nat (length L) < 2 ^ 64)%Z ->
  cfg_hist cfg = len -> cfg_bits cfg = Some bits -> 0 < cfg_query_batch cfg -> length L <= fuel ->
  uploaded true len bits vk (map e_r0 L) s0 -> uploaded false len bits vk (map e_r1 L) s1 ->
  existsb e_ok L = true -> Forall (fun e => report_verdict E len vk (e_r0 e) (e_r1 e) (e_ok e)) L -> 1 <= l -> l + 1 < bits ->
  (forall k, 1 <= k < l -> exists p, length p = k /\ heavy (threshold cfg) L p = true) -> (forall p, length p = l -> heavy (threshold cfg) L p = false) ->
  asked E (run_whh_p fuel E cfg (length L)) s0 s1 = map both (short_script (cfg_query_batch cfg) l (map e_ok L) (heavy (threshold cfg) L)).
Proof. exact view_broken_off. Qed.
Print Assumptions C82_broken_off.

(** Hence two runs with the same verdicts and the same heavy prefixes look the same to both aggregators, whatever
    the shares, the verification keys, the weights and the strings of the clients below the threshold. *)
Theorem C82_same : forall E len bits L L' vk vk' fuel fuel' cfg s0 s1 s0' s1',
  env_ok E -> Forall (good_entry E len bits) L -> Forall (good_entry E len bits) L' -> (Z.of_nat (length L) < 2 ^ 64)%Z ->
  cfg_hist cfg = len -> cfg_bits cfg = Some bits -> 0 < cfg_query_batch cfg -> 2 <= bits -> length L <= fuel -> length L <= fuel' ->
  uploaded true len bits vk (map e_r0 L) s0 -> uploaded false len bits vk (map e_r1 L) s1 ->
  uploaded true len bits vk' (map e_r0 L') s0' -> uploaded false len bits vk' (map e_r1 L') s1' ->
  existsb e_ok L = true -> Forall (fun e => report_verdict E len vk (e_r0 e) (e_r1 e) (e_ok e)) L -> Forall (fun e => report_verdict E len vk' (e_r0 e) (e_r1 e) (e_ok e)) L' ->
  (forall l, 1 <= l -> l + 1 < bits -> exists p, length p = l /\ heavy (threshold cfg) L p = true) ->
  map e_ok L = map e_ok L' -> (forall p, length p <= bits -> heavy (threshold cfg) L p = heavy (threshold cfg) L' p) ->
  asked E (run_whh_p fuel E cfg (length L)) s0 s1 = asked E (run_whh_p fuel' E cfg (length L')) s0' s1'.
Proof. exact same_view. Qed.
Print Assumptions C82_same.

(** The whole program with its simulated clients: the reset, the report shares in some batches, each aggregator its
    own half, then the requests above. *)
Theorem C82_main : forall E len bits vk clients reports chs fuel cfg s0 s1,
  env_ok E -> 1 <= bits -> mapM (gen_report E len) clients = Ret reports ->
  Forall (good_client E len bits vk) clients -> Forall (good_choice E len vk reports) chs ->
  cfg_hist cfg = len -> cfg_bits cfg = Some bits -> 0 < cfg_query_batch cfg -> 0 < cfg_add_batch cfg -> hist_ok len = true -> clients <> [] ->
  length chs <= fuel -> (Z.of_nat (length chs) < 2 ^ 64)%Z -> running 0 bits s0 -> (exists id, id <> 0%Z /\ running id bits s1) ->
  (2 <= bits -> existsb counts chs = true) -> (bits = 1 -> forallb counts chs = true) ->
  (forall l, 1 <= l -> l + 1 < bits -> exists p, length p = l /\ popular (threshold cfg) (ballots clients chs) p = true) ->
  exists ups parts, mapM (make_upload reports) chs = Ret ups /\ concat parts = ups /\
    asked E (main_whh_p fuel E cfg clients vk chs) s0 s1 =
    both (QReset vk len) :: map (fun part => (QAddReportShares (map fst part), QAddReportShares (map snd part))) parts ++
    map both (script (cfg_query_batch cfg) bits (map counts chs) (popular (threshold cfg) (ballots clients chs))).
Proof. exact main_asked. Qed.
Print Assumptions C82_main.

(** The run of C22_example with threshold 2 and query batches of two: the requests after the uploads.  With threshold 5
    the run ends at the second level. *)
Example C82_example :
  script (cfg_query_batch (cfg2 2 2 2)) 3 (map counts w_choices) (popular 2 (ballots w_clients w_choices)) =
  [QTreeInit; QRunFlpQueries 0 2; QRunFlpQueries 2 4; QRunFlpQueries 4 5; QApplyFlpResults [true; true; true; true; false];
   QTreeCrawl 1 [] false; QTreePrune [false; true]; QTreeCrawl 1 [] false; QTreePrune [true; false];
   QTreeCrawlLast; QGetProofs 0 2; QGetProofs 2 4; QGetProofs 4 5; QTreePrune [false; true]; QFinalShares] /\
  short_script 2 1 (map counts w_choices) (popular 5 (ballots w_clients w_choices)) =
  [QTreeInit; QRunFlpQueries 0 2; QRunFlpQueries 2 4; QRunFlpQueries 4 5; QApplyFlpResults [true; true; true; true; false];
   QTreeCrawl 1 [] false; QTreePrune [false; false]; QTreeCrawl 1 [] false].
Proof. exact (conj vi_script_ok vi_short_ok). Qed.
(** Two groups of clients, strings 101, 101, 001 and 101, 101, 011, with different weights: the hypotheses of C82_same
    hold for threshold 2, and the aggregators see the same requests. *)
Example C82_same_example :
  map cl_alpha w_clients <> map cl_alpha vi_clients /\ map cl_bucket w_clients <> map cl_bucket vi_clients /\
  map e_ok (vi_L w_clients w_reports) = map e_ok (vi_L vi_clients vi_reports) /\
  (forall p, length p <= 3 -> heavy 2 (vi_L w_clients w_reports) p = heavy 2 (vi_L vi_clients vi_reports) p) /\
  vi_asked w_clients w_reports = vi_asked vi_clients vi_reports.
Proof. exact vi_both. Qed.
