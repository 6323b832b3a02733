{
 "claims": [
  {
   "property": "C01",
   "status": "proved",
   "theorems": [
    "C01_point_function"
   ],
   "note": ""
  },
  {
   "property": "C02",
   "status": "proved",
   "theorems": [
    "C02_proofs_agree"
   ],
   "note": ""
  },
  {
   "property": "C03",
   "status": "proved",
   "theorems": [
    "C03_eval",
    "C03_pi_one_bit_short"
   ],
   "note": ""
  },
  {
   "property": "C04",
   "status": "proved",
   "theorems": [
    "C04_eval_tree"
   ],
   "note": ""
  },
  {
   "property": "C05",
   "status": "proved",
   "theorems": [
    "C05_transcript_soundness",
    "C05_transcript_iff"
   ],
   "note": "arbitrary keys; the only assumption on keys is the 16-byte lengths their Rust types impose"
  },
  {
   "property": "C06",
   "status": "proved",
   "theorems": [
    "C06_expand_dir",
    "C06_convert"
   ],
   "note": ""
  },
  {
   "property": "C07",
   "status": "proved",
   "theorems": [
    "C07_one_sided"
   ],
   "note": ""
  },
  {
   "property": "C08",
   "status": "proved",
   "theorems": [
    "C08_release",
    "C08_small_reads",
    "C08_debug_panic",
    "C08_debug_exact"
   ],
   "note": "release: any reads; debug: exact characterisation of when the debug assertion fires"
  },
  {
   "property": "C09",
   "status": "proved",
   "theorems": [
    "C09_alpha_leaks_refuted"
   ],
   "note": "The property is false of the code: proved that one fixed function recovers alpha from either key, always."
  },
  {
   "property": "C10",
   "status": "proved",
   "theorems": [
    "C10_key_pair"
   ],
   "note": ""
  },
  {
   "property": "C11",
   "status": "proved",
   "theorems": [
    "C11_counters_differ",
    "C11_first_block_agrees",
    "C11_portable_refuted"
   ],
   "note": "False of the portable back-end: _refuted; the agreement on the first block and the exact counters are proved."
  },
  {
   "property": "C12",
   "status": "proved",
   "theorems": [
    "C12_bits",
    "C12_panic"
   ],
   "note": ""
  },
  {
   "property": "C13",
   "status": "proved",
   "theorems": [
    "C13_string_round_trip",
    "C13_bits_round_trip",
    "C13_non_ascii_panics",
    "C13_bad_length_panics"
   ],
   "note": ""
  },
  {
   "property": "C14",
   "status": "proved",
   "theorems": [
    "C14_from_rng",
    "C14_encoding"
   ],
   "note": ""
  },
  {
   "property": "C15",
   "status": "proved",
   "theorems": [
    "C15_frontier",
    "C15_all_reports"
   ],
   "note": ""
  },
  {
   "property": "C16",
   "status": "proved",
   "theorems": [
    "C16_prune"
   ],
   "note": ""
  },
  {
   "property": "C17",
   "status": "proved",
   "theorems": [
    "C17_crawl_sum",
    "C17_crawl_last_sum"
   ],
   "note": ""
  },
  {
   "property": "C18",
   "status": "proved",
   "theorems": [
    "C18_randomness",
    "C18_weights",
    "C18_accepted",
    "C18_kept"
   ],
   "note": "Any two aggregators, batch sizes and other reports. Completeness of the FLP itself (an external library) is a hypothesis about the run's own measurement, proof and randomness; C18_example shows it satisfiable."
  },
  {
   "property": "C19",
   "status": "proved",
   "theorems": [
    "C19_recrawl",
    "C19_recrawl_exact"
   ],
   "note": ""
  },
  {
   "property": "C20",
   "status": "proved",
   "theorems": [
    "C20_threshold",
    "C20_total"
   ],
   "note": ""
  },
  {
   "property": "C21",
   "status": "proved",
   "theorems": [
    "C21_final_values"
   ],
   "note": ""
  },
  {
   "property": "C22",
   "status": "proved",
   "theorems": [
    "C22_any_reports",
    "C22_main",
    "C22_order"
   ],
   "note": "The complete driver against both aggregators, for all clients, lengths, thresholds, batch sizes and rejected reports; FLP completeness as in C18."
  },
  {
   "property": "C23",
   "status": "proved",
   "theorems": [
    "C23_flp_decisions",
    "C23_query_batch",
    "C23_upload_batch"
   ],
   "note": ""
  },
  {
   "property": "C24",
   "status": "proved",
   "theorems": [
    "C24_reachable",
    "C24_exact",
    "C24_hashes",
    "C24_collision",
    "C24_unnoticed"
   ],
   "note": "Any number of reports, any set of inconsistent ones, arbitrary well-formed keys (long enough to be evaluated). Collision freedom is required only of the Merkle roots of corresponding blocks of this level's own verification strings; C24_hashes and C24_collision drop that hypothesis: where it fails, the truncated hash collides at one place of the two trees. C24_unnoticed: equal roots over different strings let inconsistent reports pass. If no report is consistent the level panics (C26_refuted_all)."
  },
  {
   "property": "C25",
   "status": "proved",
   "theorems": [
    "C25_refuted",
    "C25_survives",
    "C25_effect",
    "C25_holds"
   ],
   "note": "The property is false of the code: C25_refuted gives the removal of a consistent report for every such rejection pattern, C25_survives that an inconsistent one then stays, C25_effect the exact effect; C25_holds proves the property when nothing was rejected before."
  },
  {
   "property": "C26",
   "status": "proved",
   "theorems": [
    "C26_refuted",
    "C26_refuted_all",
    "C26_completes"
   ],
   "note": "The property is false of the code: C26_refuted (shrunken Merkle tree) and C26_refuted_all (nothing remains) give the panics for all such inputs; C26_completes, C24_exact and C25_effect prove completion in the remaining cases."
  },
  {
   "property": "C27",
   "status": "proved",
   "theorems": [
    "C27_refuted",
    "C27_poisons",
    "C27_last_levels"
   ],
   "note": "The property is false of the code: C27_refuted (panic for every run whose heaviest prefix at some level before the last two is below the threshold); C27_last_levels proves what does hold."
  },
  {
   "property": "C28",
   "status": "proved",
   "theorems": [
    "C28_refuted",
    "C28_C29_refuted_run"
   ],
   "note": "The property is false of the code: C28_refuted gives, for every honest report and every choice of counters below the first level, keys that pass every check the honest report passes and add exactly those counters; C28_C29_refuted_run carries this through complete runs."
  },
  {
   "property": "C29",
   "status": "proved",
   "theorems": [
    "C29_refuted",
    "C28_C29_refuted_run"
   ],
   "note": "The property is false of the code: C29_refuted gives, for every honest report and every vector of weights, keys that pass every check and add exactly those weights at the last level; C28_C29_refuted_run carries this through complete runs."
  },
  {
   "property": "C30",
   "status": "proved",
   "theorems": [
    "C30_holds",
    "C30_refuted",
    "C30_refuted_few"
   ],
   "note": "The property is false of the code as soon as one report was rejected: C30_refuted gives the exact set of compared proofs for every report list, rejection pattern and batch size, C30_refuted_few the case where none is compared; C30_holds proves the property when nothing was rejected."
  },
  {
   "property": "C31",
   "status": "proved",
   "theorems": [
    "C31_refuted",
    "C31_printed"
   ],
   "note": "The property is false of the code: C31_refuted (a heavy hitter with an empty last bucket is never printed) and the exact set of printed results."
  },
  {
   "property": "C32",
   "status": "proved",
   "theorems": [
    "C32_refuted",
    "C32_other_branches"
   ],
   "note": "The property is false of the code: C32_refuted (the tampering of the VIDPF branch edits a temporary); the other branches do change the share."
  },
  {
   "property": "C33",
   "status": "proved",
   "theorems": [
    "C33_release_refuted",
    "C33_debug",
    "C33_keys_unique",
    "C33_rejected_list",
    "C33_both_checks_refuted"
   ],
   "note": "False in release builds (refuted); the debug behaviour, key uniqueness and the effect of the rejected list are proved."
  },
  {
   "property": "C34",
   "status": "proved",
   "theorems": [
    "C34_first_batch",
    "C34_table",
    "C34_refuted"
   ],
   "note": "The property is false of the code beyond the first batch: refuted; what the code does compute is proved."
  },
  {
   "property": "C35",
   "status": "proved",
   "theorems": [
    "C35_refuted",
    "C35_other_samples"
   ],
   "note": "The property is false of the code: refuted; the remaining samples are characterised."
  },
  {
   "property": "C36",
   "status": "proved",
   "theorems": [
    "C36_consumes",
    "C36_accepted_plus_rejected",
    "C36_twice",
    "C36_not_validated",
    "C36_end_to_end"
   ],
   "note": ""
  },
  {
   "property": "C37",
   "status": "proved",
   "theorems": [
    "C37_upload",
    "C37_honest_choice",
    "C37_batch_zero"
   ],
   "note": ""
  },
  {
   "property": "C38",
   "status": "proved",
   "theorems": [
    "C38_reset"
   ],
   "note": ""
  },
  {
   "property": "C39",
   "status": "proved",
   "theorems": [
    "C39_poison",
    "C39_before_the_lock"
   ],
   "note": ""
  },
  {
   "property": "C40",
   "status": "proved",
   "theorems": [
    "C40_never_readmitted"
   ],
   "note": ""
  },
  {
   "property": "C41",
   "status": "proved",
   "theorems": [
    "C41_apply_flp_results"
   ],
   "note": ""
  },
  {
   "property": "C42",
   "status": "proved",
   "theorems": [
    "C42_string",
    "C42_agree",
    "C42_refuted"
   ],
   "note": "The property is false of the code: the string is characterised exactly and adding 2^64 to any component is shown to go unnoticed."
  },
  {
   "property": "C43",
   "status": "proved",
   "theorems": [
    "C43_equal"
   ],
   "note": "For any two reachable aggregator states with the same frontier, any other reports and any flags."
  },
  {
   "property": "C44",
   "status": "proved",
   "theorems": [
    "C44_exact",
    "C44_covers",
    "C44_binding",
    "C44_lengths",
    "C44_blocks",
    "C44_off_by_one",
    "C44_refuted",
    "C44_undetected",
    "C44_left_out"
   ],
   "note": "Holds up to 2^21 reports, false at 2^21 + 1: both proved, for any correctly rounded f32 log2 (ties either way). Uses the axioms of Coq's real numbers. C44_undetected: with 2^21 + 1 reports a level counts the last one though it is inconsistent. C44_binding, C44_blocks and C44_left_out (no axioms): the root binds every hash below it, up to a collision of the truncated hash exhibited at one place of the two trees."
  },
  {
   "property": "C45",
   "status": "proved",
   "theorems": [
    "C45_crawls"
   ],
   "note": ""
  },
  {
   "property": "C46",
   "status": "proved",
   "theorems": [
    "C46_refuted",
    "C46_two_bits"
   ],
   "note": "The property is false of the code for data_bits = 1: refuted for every run; for two or more bits every accepted report passed the FLP decision."
  },
  {
   "property": "C47",
   "status": "proved",
   "theorems": [
    "C47_wrong_type_refuted",
    "C47_wrong_type_metrics_refuted",
    "C47_short_key_refuted",
    "C47_proof_share_refuted"
   ],
   "note": "The property is false of the code: each kind of malformed report is shown to panic the handler and poison the lock."
  },
  {
   "property": "C48",
   "status": "proved",
   "theorems": [
    "C48_commute"
   ],
   "note": ""
  },
  {
   "property": "C49",
   "status": "proved",
   "theorems": [
    "C49_xor",
    "C49_vec"
   ],
   "note": ""
  },
  {
   "property": "C50",
   "status": "proved",
   "theorems": [
    "C50_out_of_range",
    "C50_in_range"
   ],
   "note": ""
  },
  {
   "property": "C51",
   "status": "proved",
   "theorems": [
    "C51_exact",
    "C51_collision",
    "C51_crash"
   ],
   "note": "Any number of reports with evaluable keys; collision freedom is required only of the Merkle roots at those levels of this very run at which two verification strings differ. C51_collision drops that hypothesis: the run is as specified or the truncated hash collides at one place of the two trees of some level."
  },
  {
   "property": "C52",
   "status": "proved",
   "theorems": [
    "C52_exact",
    "C52_main"
   ],
   "note": "C52_exact covers arbitrary reports with evaluable keys; C52_main the whole program with honest clients, for any zipf samples in 1..clients-1 and any iteration order of the HashSet. A release build keeps rejected reports and tables accumulate over batches; both are part of the statement."
  },
  {
   "property": "C53",
   "status": "proved",
   "theorems": [
    "C53_batches",
    "C53_main"
   ],
   "note": "Prio3 itself is external: C53_batches assumes only that both aggregators can follow the preparation of each report, C53_main that it accepts honest uploads and rejects the spoilt ones of this run."
  },
  {
   "property": "C54",
   "status": "proved",
   "theorems": [
    "C54_bitstring",
    "C54_preimage",
    "C54_proof"
   ],
   "note": "C54_bitstring, C54_preimage and C54_proof, for any key and any hash function."
  },
  {
   "property": "C55",
   "status": "proved",
   "theorems": [
    "C55_eval",
    "C55_gen"
   ],
   "note": "The property is false of the code: C55_eval and C55_gen show that two of the 128 bits of every root seed have no influence on anything."
  },
  {
   "property": "C57",
   "status": "proved",
   "theorems": [
    "C57_refuted",
    "C57_refuted_run"
   ],
   "note": "The property is false of the code: C57_refuted gives the forged keys for every honest report and every chosen seed (provided the sibling string is not an attribute), C57_refuted_run carries them through complete runs."
  },
  {
   "property": "C56",
   "status": "proved",
   "theorems": [
    "C56_bounds",
    "C56_refuted",
    "C56_conversion",
    "C56_rest",
    "C56_run"
   ],
   "note": "The property is false of the code: C56_refuted for every fraction and number of clients whose product has a fractional part in (0, 1/2], carried to complete runs by the third part of C56_run; C56_bounds and the first two parts of C56_run prove what does hold. f64 is binary64 of Coq's standard library (SpecFloat, no axioms)."
  },
  {
   "property": "C58",
   "status": "proved",
   "theorems": [
    "C58_sqrt",
    "C58_model",
    "C58_refuted"
   ],
   "note": "For all bucket counts below 2^52, which includes all the aggregators accept (C58_model); C58_refuted shows that the bound cannot be dropped altogether."
  },
  {
   "property": "C59",
   "status": "proved",
   "theorems": [
    "C59_same_order",
    "C59_refuted_order",
    "C59_refuted_reset",
    "C59_refuted_late"
   ],
   "note": "The property is false of the code: C59_refuted_order, C59_refuted_reset and C59_refuted_late; C59_same_order proves the pairing when both aggregators see the same order."
  },
  {
   "property": "C60",
   "status": "proved",
   "theorems": [
    "C60_report",
    "C60_hiding",
    "C60_small",
    "C60_possible",
    "C60_refuted"
   ],
   "note": "False of the code as stated (C60_refuted): From<u128> reduces unevenly. C60_hiding bounds the advantage of any test, C60_small gives its size, C60_report ties the shares to gen_report. Uniformity of the draws themselves (thread_rng) is trusted."
  },
  {
   "property": "C61",
   "status": "proved",
   "theorems": [
    "C61_sound",
    "C61_run",
    "C61_refuted",
    "C61_refuted_half"
   ],
   "note": "False of the code as stated (C61_refuted, keys with zero hashes; C57_refuted shows that siblings must be looked at too). C61_sound and C61_run give what holds, under explicit conditions on the run at hand: no accidental coincidence of hashes, and in C61_run soundness of the FLP verdicts that occurred."
  },
  {
   "property": "C62",
   "status": "proved",
   "theorems": [
    "C62_refuted",
    "C62_refuted_run"
   ],
   "note": "The property is false of the code: C62_refuted gives, for every honest report and every weight vector, two keys with different public parts that pass all checks and count with it; C62_refuted_run carries them through complete runs. Other parents among the full-length attributes are excluded by the hypothesis."
  },
  {
   "property": "C63",
   "status": "proved",
   "theorems": [
    "C63_frontier",
    "C63_result",
    "C63_refuted"
   ],
   "note": "C63_frontier and C63_result prove the bound when all accepted reports are honest. The property is false of the code with one dishonest report: C63_refuted constructs, for all honest reports, keys that pass every check and make 2^(bits-1) strings results."
  },
  {
   "property": "C64",
   "status": "proved",
   "theorems": [
    "C64_draws",
    "C64_debug",
    "C64_refuted"
   ],
   "note": "The key-stream half holds (C64_draws); the independence of the buffer's contents is false of the code: C64_debug, C64_refuted. The block cipher is an arbitrary function with 16-byte blocks."
  },
  {
   "property": "C65",
   "status": "proved",
   "theorems": [
    "C65_dpf",
    "C65_tree",
    "C65_collect",
    "C65_groups",
    "C65_full",
    "C65_flp",
    "C65_bits"
   ],
   "note": "C65_dpf, C65_tree, C65_collect, C65_groups, C65_full, C65_flp and C65_bits cover the repository's tests one by one, generalised over their constants; the FLP test under completeness of the FLP for the randomness of the run."
  },
  {
   "property": "C66",
   "status": "proved",
   "theorems": [
    "C66_view",
    "C66_refuted",
    "C66_after_run_refuted"
   ],
   "note": "False of the code: C66_refuted and C66_after_run_refuted give the attack for every honest client and every state; C66_view states exactly what the honest driver's requests reveal. No claim about computational privacy of single answers is made."
  },
  {
   "property": "C67",
   "status": "proved",
   "theorems": [
    "C67_order",
    "C67_threshold",
    "C67_refuted"
   ],
   "note": "C67_order and C67_threshold when the accepted reports are honest; false of the code otherwise (C67_refuted: four reports, two orders, one panics)."
  },
  {
   "property": "C68",
   "status": "proved",
   "theorems": [
    "C68_refuted"
   ],
   "note": "False of the code: C68_refuted, for all honest reports and all numbers of copies from the threshold on."
  },
  {
   "property": "C69",
   "status": "proved",
   "theorems": [
    "C69_attributes",
    "C69_histograms"
   ],
   "note": "C69_attributes and C69_histograms, over complete runs from the upload on."
  },
  {
   "property": "C70",
   "status": "proved",
   "theorems": [
    "C70_threshold_refuted",
    "C70_refuted"
   ],
   "note": "False of the code: C70_threshold_refuted (the run with shifted counters is the run with the lower threshold, outcome and states included) and C70_refuted (every accepted string is reported)."
  },
  {
   "property": "C71",
   "status": "proved",
   "theorems": [
    "C71_ends",
    "C71_query_refuted",
    "C71_upload_refuted",
    "C71_no_result",
    "C71_disabled"
   ],
   "note": "False of the code for batch size 0 (C71_query_refuted, C71_upload_refuted, C71_no_result, C71_disabled). With positive sizes every run ends: C71_ends, for all environments, states and inputs."
  },
  {
   "property": "C72",
   "status": "proved",
   "theorems": [
    "C72_handlers",
    "C72_requests",
    "C72_reports",
    "C72_order"
   ],
   "note": "C72_handlers, C72_requests, C72_reports over all interleavings of the closures' generator calls; C72_order for the HashMap. Generator calls are atomic steps: they borrow the thread's stream for their whole duration."
  },
  {
   "property": "C73",
   "status": "proved",
   "theorems": [
    "C73_order",
    "C73_exclusive",
    "C73_ends"
   ],
   "note": "C73_order (linearizability with the order of answering), C73_exclusive, C73_ends (no deadlock, no infinite execution). The fairness of tokio and of the mutex is not needed. A panicking handler leaves an arbitrary collector behind."
  },
  {
   "property": "C74",
   "status": "proved",
   "theorems": [
    "C74_prime",
    "C74_complete",
    "C74_prover",
    "C74_checks",
    "C74_sound",
    "C74_spoilt",
    "C74_spoilt_few"
   ],
   "note": "C74_prime, C74_complete, C74_prover, C74_checks, C74_sound, C74_spoilt, C74_spoilt_few. The model of the proof system follows the public VDAF draft (the crate is not in /repo); Fourier transforms by their defining sums."
  },
  {
   "property": "C75",
   "status": "proved",
   "theorems": [
    "C75_main",
    "C75_attributes",
    "C75_spoilt",
    "C75_generated"
   ],
   "note": "C75_main and C75_attributes are C22_main and C52_main with flp_complete and the verdict hypotheses replaced by conditions on the query points; C75_spoilt; C75_generated (report generation succeeds exactly with the randomness it draws)."
  },
  {
   "property": "C76",
   "status": "proved",
   "theorems": [
    "C76_refuted",
    "C76_characterisation",
    "C76_run"
   ],
   "note": "False of the code: C76_refuted. C76_characterisation says exactly which weights are accepted from a client that follows the protocol except for its weights; C76_run carries them through a complete run."
  },
  {
   "property": "C77",
   "status": "proved",
   "theorems": [
    "C77_heavy",
    "C77_attributes",
    "C77_plain"
   ],
   "note": "C77_heavy, C77_attributes, C77_plain: the system of driver and aggregators (System.v) runs as main_whh, main_abm and main_pm. With a failed request try_join! may return while the other aggregator is still busy; then only the panic is claimed. The uploads are sent one batch after the other."
  },
  {
   "property": "C78",
   "status": "proved",
   "theorems": [
    "C78_refuted",
    "C78_query",
    "C78_run",
    "C78_right",
    "C78_same"
   ],
   "note": "False of the code: C78_refuted (any weights are accepted once the second joint random values differ), C78_query for the proof system alone, C78_run for a complete run. What holds: C78_right, C78_same."
  },
  {
   "property": "C79",
   "status": "proved",
   "theorems": [
    "C79_main",
    "C79_honest",
    "C79_missed",
    "C79_joint"
   ],
   "note": "C79_main is C53_main with the hypotheses on Prio3 replaced by conditions on query points; C79_honest, C79_missed, C79_joint (which spells out the bytes sent and what is hashed). Prio3 is modelled after the public VDAF draft (the crate is not in /repo)."
  },
  {
   "property": "C80",
   "status": "proved",
   "theorems": [
    "C80_exact",
    "C80_agree",
    "C80_one_sided",
    "C80_refuted"
   ],
   "note": "False of the code: C80_refuted. C80_exact gives the outcome for any verdicts; C80_agree and C80_one_sided say when it is the intended one. The witness needs an XOF whose joint randomness does not depend on the seed."
  },
  {
   "property": "C81",
   "status": "proved",
   "theorems": [
    "C81_exact",
    "C81_honest",
    "C81_refuted",
    "C81_guess"
   ],
   "note": "The property is false of the code: C81_refuted (either aggregator drops any set of accepted reports by adding 1 to its verifier shares; the result is that of a run without these clients). C81_exact gives the outcome for every change of the answers and any proof system, C81_honest that no change is the driver's run, C81_guess what it cannot do."
  },
  {
   "property": "C82",
   "status": "proved",
   "theorems": [
    "C82_view",
    "C82_broken_off",
    "C82_same",
    "C82_main"
   ],
   "note": "C82_view: the exact requests of a run, as a function of verdicts and heavy prefixes, and the final states; C82_broken_off for runs that end early; C82_same compares two runs; C82_main starts at the reset. The answers an aggregator computes are not compared across runs: they depend on its own shares."
  },
  {
   "property": "C83",
   "status": "proved",
   "theorems": [
    "C83_tables_refuted",
    "C83_histograms_refuted",
    "C83_votes_refuted",
    "C83_counts_refuted",
    "C83_table_checks",
    "C83_histogram_checks"
   ],
   "note": "The property is false of the code: C83_tables_refuted and C83_histograms_refuted hold for every run of the two programs, C83_votes_refuted and C83_counts_refuted give the result with honest clients. C83_table_checks and C83_histogram_checks characterise exactly which answers the driver accepts."
  },
  {
   "property": "C84",
   "status": "proved",
   "theorems": [
    "C84_refuted",
    "C84_votes_refuted",
    "C84_checks"
   ],
   "note": "The property is false of the code: C84_refuted holds for every run of the program, C84_votes_refuted gives the result with honest clients. C84_checks characterises exactly which answers the driver accepts at the last level."
  },
  {
   "property": "C85",
   "status": "proved",
   "theorems": [
    "C85_refuted",
    "C85_twice",
    "C85_release"
   ],
   "note": "The property is false of debug builds: C85_refuted gives the exact tables of a run in which an aggregator suppresses chosen valid uploads, C85_twice the case of a chosen upload that is invalid. C85_release is the property for release builds, for every lie about the validation. Lies in the later answers are C83; plain metrics is C86."
  },
  {
   "property": "C86",
   "status": "proved",
   "theorems": [
    "C86_refuted",
    "C86_shares"
   ],
   "note": "The property is false of the code: C86_refuted gives the exact histograms of a run in which an aggregator suppresses chosen valid uploads. C86_shares is what remains true: changed preparation shares alone are noticed. A changed share that does not decode makes the other aggregator panic; the hypothesis suppressible_choice excludes it."
  },
  {
   "property": "C87",
   "status": "proved",
   "theorems": [
    "C87_refuted",
    "C87_one_bit"
   ],
   "note": "The property is false of the code. C87_refuted: for either aggregator, any alteration of its verifier shares on which the driver's decision about upload i is ok i gives a normal run that prints exactly the heavy hitters and histograms of the uploads in ok. C87_one_bit: with one-bit strings no alteration of the answers to FLP queries has any effect. The idealised FLP is used through flp_query and flp_decide of the environment only; whether a given alteration exists for the real proof system is the hypothesis lied_verdict."
  },
  {
   "property": "C88",
   "status": "proved",
   "theorems": [
    "C88_attributes",
    "C88_plain"
   ],
   "note": "C88_attributes: the requests of main_abm_p with its simulated clients, written down by abm_script from the attributes and the verdicts. C88_plain: the requests to each aggregator in any run of main_pm_p that ends normally, written down by pm_script from the other aggregator's preparation shares. asked lists the requests of the sequential interpretation; C77 relates it to all schedules."
  },
  {
   "property": "C89",
   "status": "proved",
   "theorems": [
    "C89_refuted",
    "C89_attributes_refuted",
    "C89_batches",
    "C89_attribute_batches"
   ],
   "note": "The property is false of the code. C89_refuted (plain metrics) and C89_attributes_refuted: for every honest upload that is a batch of its own, a printed histogram, or the growth between two consecutive tables, is exactly its vote. C89_batches and C89_attribute_batches: two runs whose batches hold the same votes print the same numbers."
  }
 ]
}