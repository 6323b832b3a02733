(** Property C85 (src/bin/driver.rs:539-612, src/bin/server.rs:150-224): an aggregator alone cannot have the report of a
    valid client left out of the tables of attribute-based metrics. *)
From Verif Require Import Base Field Util Env Prg Vidpf Merkle Collect Server Driver Modes SpecVidpf SpecLevel SpecWhh SpecMetrics SpecModes Sched System SpecTamper SpecDrop
  RefEnv ToyEnv ExRun DriverPropFacts WhhExamples ModesExamples DropFacts DropExamples.
From Coq Require Import Permutation.

(** C85 is false in debug builds.  Either aggregator picks the positions D of any valid uploads it does not want and sends
    a different evaluation proof for each of them.  Nothing stops the run, and its tables are those of C52_main without
    these uploads. *)
Theorem C85_refuted : forall E who spoil D len bits vk clients reports chs samples order fuel cfg s0 s1,
  dbg E = true -> (forall h, spoil h <> h) -> (forall i ch, nth_error chs i = Some ch -> D i = true -> counts ch = true) ->
  env_ok E -> 1 <= bits -> mapM (gen_report E len) clients = Ret reports ->
  Forall (good_client E len bits vk) clients -> Forall (good_choice E len vk reports) chs -> fixed_verifier_len E len ->
  cfg_hist cfg = len -> 0 < cfg_query_batch cfg -> 0 < cfg_add_batch cfg -> hist_ok len = true -> clients <> [] -> length chs <= fuel ->
  running 0 bits s0 -> (exists id, id <> 0%Z /\ running id bits s1) ->
  (forall s, In s samples -> 1 <= s < length clients) -> (forall l, Permutation (order l) l) ->
  exists t0 t1 attrs, tampered E who (spoil_proofs spoil D) (main_abm_p fuel E cfg clients vk chs samples order) s0 s1 =
    Ret (t0, t1, map (fun e => tally_table len attrs (in_table_without true D clients (firstn e chs))) (batch_ends (length chs) (cfg_query_batch cfg))) /\
    NoDup attrs /\ forall a, In a attrs <-> exists i cl, In i samples /\ nth_error clients i = Some cl /\ a = cl_alpha cl.
Proof. exact valid_dropped. Qed.
Print Assumptions C85_refuted.
(** If one of these uploads is invalid anyway, it is rejected twice and that ends the run. *)
Theorem C85_twice : forall E who spoil D len bits vk clients reports chs samples order fuel cfg s0 s1,
  dbg E = true -> (forall h, spoil h <> h) -> (exists i ch, nth_error chs i = Some ch /\ D i = true /\ counts ch = false) ->
  env_ok E -> 1 <= bits -> mapM (gen_report E len) clients = Ret reports ->
  Forall (good_client E len bits vk) clients -> Forall (good_choice E len vk reports) chs -> fixed_verifier_len E len ->
  cfg_hist cfg = len -> 0 < cfg_query_batch cfg -> 0 < cfg_add_batch cfg -> hist_ok len = true -> clients <> [] -> length chs <= fuel ->
  running 0 bits s0 -> (exists id, id <> 0%Z /\ running id bits s1) ->
  (forall s, In s samples -> 1 <= s < length clients) -> (forall l, Permutation (order l) l) ->
  tampered E who (spoil_proofs spoil D) (main_abm_p fuel E cfg clients vk chs samples order) s0 s1 = Panic PDebugAssert.
Proof. exact invalid_dropped. Qed.
Print Assumptions C85_twice.
(** In release builds lies in the answers to the validation, of any kind, change nothing: if the run ends, then as without them.
    There is no condition on the clients, the configuration or the state of the aggregators.  This is so because in release
    builds the verdicts are never applied (C33). *)
Theorem C85_release : forall E who alter fuel cfg clients vk chs samples order s0 s1 x y,
  dbg E = false -> about_validation alter ->
  tampered E who alter (main_abm_p fuel E cfg clients vk chs samples order) s0 s1 = Ret x ->
  main_abm fuel E cfg clients vk chs samples order s0 s1 = Ret y -> x = y.
Proof. intros E who alter fuel cfg clients vk chs samples order s0 s1 x y Hd Ha. exact (release_main E who alter Hd Ha fuel cfg clients vk chs samples order s0 s1 x y). Qed.
Print Assumptions C85_release.

(** The run of C52_example, whose final table has 1 and 2 for the first attribute, without the second upload, the only one for
    bucket 0: its row becomes 0 and 2.  With the fifth upload, which is invalid, the run ends. *)
Example C85_example : forall who,
  (exists t0 t1 attrs, dr_run tx who (Nat.eqb 1) = Ret (t0, t1, map (tally_table 2 attrs)
     [[([true; false; true], 1)]; [([true; false; true], 1); ([false; false; true], 1); ([true; false; true], 1)]; [([true; false; true], 1); ([false; false; true], 1); ([true; false; true], 1)]]) /\
     In [true; false; true] attrs) /\
  dr_run tx who (Nat.eqb 4) = Panic PDebugAssert.
Proof. exact dr_example. Qed.
