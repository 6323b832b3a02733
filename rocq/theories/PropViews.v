(** Property C88 (src/bin/driver.rs:539-612, 614-686, 752-768): what an aggregator learns from the requests of an honest
    driver in runs of the two kinds of metrics. *)
From Verif Require Import Base Field Util Env Prg Vidpf Merkle Collect Server Driver Modes SpecVidpf SpecLevel SpecWhh SpecMetrics SpecModes Sched System SpecView SpecViews
  DriverPropFacts RefEnv ToyEnv ExRun RefuteExamples WhhExamples ModesExamples ViewFacts ViewsFacts ViewsExamples.
From Coq Require Import Permutation.

(** Attribute-based metrics: the reset, the report shares in some batches, each aggregator its own half, then the same
    requests for both, which [abm_script] writes down from the attributes and the FLP verdicts alone. *)
Theorem C88_attributes : forall E len bits vk clients reports chs samples order fuel cfg s0 s1,
  env_ok E -> 1 <= bits -> mapM (gen_report E len) clients = Ret reports ->
  Forall (good_client E len bits vk) clients -> Forall (good_choice E len vk reports) chs -> fixed_verifier_len E len ->
  cfg_hist cfg = len -> 0 < cfg_query_batch cfg -> 0 < cfg_add_batch cfg -> hist_ok len = true -> clients <> [] -> length chs <= fuel ->
  running 0 bits s0 -> (exists id, id <> 0%Z /\ running id bits s1) ->
  (forall s, In s samples -> 1 <= s < length clients) -> (forall l, Permutation (order l) l) ->
  exists attrs ups parts, sample_attributes reports samples = Ret attrs /\ mapM (make_upload reports) chs = Ret ups /\ concat parts = ups /\
    asked E (main_abm_p fuel E cfg clients vk chs samples order) s0 s1 =
    both (QReset vk len) :: map (fun part => (QAddReportShares (map fst part), QAddReportShares (map snd part))) parts ++
    map both (abm_script (cfg_query_batch cfg) (order attrs) (map counts chs)).
Proof. exact abm_view. Qed.
Print Assumptions C88_attributes.

(** Plain metrics, any run that ends with tables, whatever the clients upload: each aggregator gets, besides its own report
    shares, the preparation shares the other one computed for the same reports, batch by batch, and nothing else. *)
Theorem C88_plain : forall E shard len vk clients reports chs ups fuel cfg s0 s1 x,
  mapM (gen_prio_report shard len) clients = Ret reports -> mapM (make_upload reports) chs = Ret ups ->
  cfg_hist cfg = len -> 0 < cfg_query_batch cfg -> 0 < cfg_add_batch cfg -> length chs <= fuel ->
  s_poison s0 = false -> s_id s0 = 0%Z -> s_poison s1 = false -> s_id s1 = 1%Z ->
  main_pm fuel E shard cfg clients vk chs s0 s1 = Ret x ->
  exists parts w0 w1, concat parts = ups /\
    Forall2 (fun u w => prep_share E len vk 0 (fst u) = Some w) ups w0 /\ Forall2 (fun u w => prep_share E len vk 1 (snd u) = Some w) ups w1 /\
    map fst (asked E (main_pm_p fuel E shard cfg clients vk chs) s0 s1) =
      QReset vk len :: map (fun part => QAddReportShares (map fst part)) parts ++ pm_script (cfg_query_batch cfg) w1 /\
    map snd (asked E (main_pm_p fuel E shard cfg clients vk chs) s0 s1) =
      QReset vk len :: map (fun part => QAddReportShares (map snd part)) parts ++ pm_script (cfg_query_batch cfg) w0.
Proof. exact pm_view. Qed.
Print Assumptions C88_plain.

(** The run of C52_example: five uploads of which the last is rejected, batches of two, the attributes 101 and 001. *)
Example C88_attributes_example : exists ups parts, mapM (make_upload w_reports) w_choices = Ret ups /\ concat parts = ups /\
  asked tx (main_abm_p 20 tx (cfg2 2 2 1) w_clients ex_vk w_choices [1; 2; 1] (@rev (list bool))) (fst w_servers) (snd w_servers) =
  both (QReset ex_vk 2) :: map (fun part => (QAddReportShares (map fst part), QAddReportShares (map snd part))) parts ++
  map both (let attrs := [[true; false; true]; [false; false; true]] in
            [QAbmValidate attrs 0 2; QAbmResult [] 2 0 2; QAbmValidate attrs 2 4; QAbmResult [] 2 2 4; QAbmValidate attrs 4 5; QAbmResult [4] 2 4 5]).
Proof. exact vw_abm. Qed.
(** The run of C53_example: uploads of the clients 0, 1, 2 (with a spoilt half of the second aggregator) and 2, batches of
    three.  Each aggregator gets the preparation shares of the other one. *)
Example C88_plain_example : exists parts : list (list (report_share * report_share)),
  map fst vw_seen = QReset ex_vk 2 :: map (fun part => QAddReportShares (map fst part)) parts ++
    [QPmValidate 0 3; QPmResult [[0; 0]; [0; 0]; [1; 0]]%N 0 3; QPmValidate 3 4; QPmResult [[0; 0]]%N 3 4] /\
  map snd vw_seen = QReset ex_vk 2 :: map (fun part => QAddReportShares (map snd part)) parts ++
    [QPmValidate 0 3; QPmResult [[0; 1]; [1; 0]; [0; 1]]%N 0 3; QPmValidate 3 4; QPmResult [[0; 1]]%N 3 4].
Proof. exact vw_pm. Qed.
