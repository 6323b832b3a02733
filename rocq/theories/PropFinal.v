(** Property C84 (src/bin/driver.rs:465-537, src/collect.rs:608-643): an aggregator alone cannot change the counts that are
    printed for the heavy hitters without being noticed. *)
From Verif Require Import Base Field Util Env Prg Vidpf Merkle Collect Server Driver SpecVidpf SpecServer SpecLevel SpecWhh Sched System SpecTamper SpecFinal
  RefEnv ToyEnv ExRun DriverPropFacts WhhExamples FinalFacts FinalExamples.

(** C84 is false.  Any number can be added by either aggregator to any count of any of the strings: the whole program ends
    exactly as without it, panics included, apart from these counts, and a string whose total becomes 0 is left out.
    There is no condition on the clients, the configuration or the state of the aggregators. *)
Theorem C84_refuted : forall E who d fuel cfg clients vk chs s0 s1,
  tampered E who (add_to_results d) (main_whh_p fuel E cfg clients vk chs) s0 s1 =
  let! '(t0, t1, rs) := main_whh fuel E cfg clients vk chs s0 s1 in Ret (t0, t1, filter (counter_nonzero (cfg_hist cfg)) (map (raised_result d) rs)).
Proof. exact whh_tampered. Qed.
Print Assumptions C84_refuted.
(** With honest clients (C22_main): the popular strings with any votes added or taken away. *)
Theorem C84_votes_refuted : forall E who extra len bits vk clients reports chs fuel cfg s0 s1,
  env_ok E -> 1 <= bits -> mapM (gen_report E len) clients = Ret reports ->
  Forall (good_client E len bits vk) clients -> Forall (good_choice E len vk reports) chs ->
  cfg_hist cfg = len -> cfg_bits cfg = Some bits -> 0 < cfg_query_batch cfg -> 0 < cfg_add_batch cfg -> hist_ok len = true -> clients <> [] ->
  length chs <= fuel -> (Z.of_nat (length chs) < 2 ^ 64)%Z -> running 0 bits s0 -> (exists id, id <> 0%Z /\ running id bits s1) ->
  (2 <= bits -> existsb counts chs = true) -> (bits = 1 -> forallb counts chs = true) ->
  (forall l, 1 <= l -> l + 1 < bits -> exists p, length p = l /\ popular (threshold cfg) (ballots clients chs) p = true) ->
  exists t0 t1, tampered E who (add_to_results (fun p j => of_Z (extra p j))) (main_whh_p fuel E cfg clients vk chs) s0 s1 =
    Ret (t0, t1, map (padded_result (ballots clients chs) len extra)
      (filter (fun p => popular (threshold cfg) (ballots clients chs) p && negb ((tally (ballots clients chs) p + extra p len) mod P =? 0)%Z) (all_paths bits))).
Proof. exact padded_results. Qed.
Print Assumptions C84_votes_refuted.

(** What the driver does check at the last level, whatever the aggregators answer: that there are equally many vectors in the
    answers to the crawl, each with a total; that all answers to the requests for proofs are equal (two empty lists are);
    and that the final shares are for the same strings.  The final shares are compared neither with the answers to the crawl nor with
    the threshold, and the proofs of an aggregator with nothing but the other's. *)
Theorem C84_checks : forall E fuel cfg n answers rs, 0 < cfg_query_batch cfg -> n <= fuel ->
  fed E (run_level_last_p fuel cfg n) answers = Some (Ret rs) <->
  exists v0 v1 ps done f0 f1, answers = (AFields v0, AFields v1) :: ps ++ [done; (AFinal f0, AFinal f1)] /\
    length v0 = length v1 /\ Forall (fun v => cfg_hist cfg < length v) v0 /\ Forall (fun v => cfg_hist cfg < length v) v1 /\
    length ps = proof_requests n (cfg_query_batch cfg) /\ Forall same_proofs ps /\
    map res_path f0 = map res_path f1 /\ rs = filter (counter_nonzero (cfg_hist cfg)) (reconstruct (cfg_hist cfg) f0 f1).
Proof. exact last_checks. Qed.
Print Assumptions C84_checks.

(** The run of C22_example with threshold 1, which prints 001 with 0, 1 and total 1 and 101 with 1, 2 and total 3.
    With 1000 votes added to 001 in bucket 0 and the total of 101 lowered by 3, the first has 1000, 1 and total 1001 and the
    second is not printed.  The hypotheses are those of C22_example. *)
Example C84_example : forall who, exists t0 t1,
  tampered tx who (add_to_results (fun p j => of_Z (fi_extra p j))) (main_whh_p 20 tx (cfg2 2 3 1) w_clients ex_vk w_choices) (fst w_servers) (snd w_servers) =
  Ret (t0, t1, [{| res_path := [false; false; true]; res_value := map of_Z [1000; 1; 1001]%Z |}]).
Proof. exact fi_results. Qed.
(** Answers of the second kind: one request for proofs, answered with empty lists; a string that is not below anything crawled. *)
Example C84_example_checks : forall E, fed E (run_level_last_p 5 (cfg2 2 5 4) 5)
    [(AFields [], AFields []); (AProofs [], AProofs []); (ADone, ADone);
     (AFinal [{| res_path := [true; true; true]; res_value := map of_Z [1; 2; 3]%Z |}], AFinal [{| res_path := [true; true; true]; res_value := map of_Z [4; 0; 0]%Z |}])] =
  Some (Ret [{| res_path := [true; true; true]; res_value := map of_Z [5; 2; 3]%Z |}]).
Proof. reflexivity. Qed.
