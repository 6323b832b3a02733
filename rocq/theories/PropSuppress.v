(** Property C86 (src/bin/driver.rs:614-686, src/bin/server.rs:227-319): an aggregator alone cannot have the report of a
    valid client left out of the histograms of plain metrics. *)
From Verif Require Import Base Field Util Env Prg Vidpf Merkle Collect Server Driver Modes SpecVidpf SpecLevel SpecWhh SpecMetrics SpecModes Sched System SpecTamper SpecSuppress
  RefEnv ToyEnv ExRun DriverPropFacts WhhExamples ModesExamples SuppressFacts SuppressExamples.

(** C86 is false.  Either aggregator picks the positions D of any valid uploads it does not want, sends for them preparation
    shares with which the other one rejects them, and leaves them out of its own sum and counts them as rejected.  Nothing
    stops the run, in debug builds or release builds, and its histograms are those of C53_main with these votes struck out. *)
Theorem C86_refuted : forall E shard len vk clients chs who sp D out fuel cfg s0 s1,
  (forall cl, In cl clients -> shard len (pc_bucket cl) (pc_nonce cl) (pc_rand cl) <> None) ->
  Forall (good_pm_choice E shard len vk clients) chs -> (forall i ch, nth_error chs i = Some ch -> D i = true -> suppressible_choice E shard len vk clients who sp (out i) ch) ->
  cfg_hist cfg = len -> hist_ok len = true -> clients <> [] -> 0 < cfg_query_batch cfg -> 0 < cfg_add_batch cfg ->
  length chs <= fuel -> (Z.of_nat (length chs) < 2 ^ 64)%Z ->
  s_poison s0 = false -> s_id s0 = 0%Z -> s_poison s1 = false -> s_id s1 = 1%Z ->
  exists t0 t1, tampered E who (suppress true sp D out) (main_pm_p fuel E shard cfg clients vk chs) s0 s1 =
    Ret (t0, t1, map (vote_histogram len) (pieces (cfg_query_batch cfg) (votes_without D clients chs))).
Proof. exact votes_suppressed. Qed.
Print Assumptions C86_refuted.
(** Changed preparation shares alone do not suffice: then the aggregators differ in the number of rejected reports and the driver stops. *)
Theorem C86_shares : forall E shard len vk clients chs who sp D out fuel cfg s0 s1 i,
  (forall cl, In cl clients -> shard len (pc_bucket cl) (pc_nonce cl) (pc_rand cl) <> None) ->
  Forall (good_pm_choice E shard len vk clients) chs -> (forall i ch, nth_error chs i = Some ch -> D i = true -> suppressible_choice E shard len vk clients who sp (out i) ch) ->
  cfg_hist cfg = len -> hist_ok len = true -> clients <> [] -> 0 < cfg_query_batch cfg -> 0 < cfg_add_batch cfg ->
  length chs <= fuel -> (Z.of_nat (length chs) < 2 ^ 64)%Z ->
  s_poison s0 = false -> s_id s0 = 0%Z -> s_poison s1 = false -> s_id s1 = 1%Z ->
  i < length chs -> D i = true ->
  tampered E who (suppress false sp D out) (main_pm_p fuel E shard cfg clients vk chs) s0 s1 = Panic PAssert.
Proof. exact shares_alone. Qed.
Print Assumptions C86_shares.

(** The run of C53_example, whose histograms are [1, 1] with one rejected report and [0, 1] with none, without the second upload,
    the only one for bucket 0. *)
Example C86_example : forall who, (exists t0 t1, su_run true who = Ret (t0, t1, [([0; 1], 2); ([0; 1], 0)]%Z)) /\ su_run false who = Panic PAssert.
Proof. exact su_example. Qed.
