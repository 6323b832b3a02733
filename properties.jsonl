{"id": "C01", "title": "VIDPF shares reconstruct the point function at every prefix", "statement": "For a key pair produced by VidpfKey::gen(alpha, beta), evaluating both keys along any non-empty path of length at most |alpha| succeeds, and the two word shares add up to beta followed by the counter 1 if the path is a prefix of alpha, and to the all-zero vector otherwise.", "quantifier": "all alpha, beta, root seeds, every path of length 1..|alpha|, every AES/BLAKE3 behaviour, both build profiles and both counter back-ends", "why_tests_cant": "2^|alpha| paths times 2^256 seeds times unbounded beta; the unit test covers one alpha of 5 bits and skips the last levels.", "anchors": ["src/vidpf.rs:VidpfKey::gen", "src/vidpf.rs:VidpfKey::eval_bit", "src/vidpf.rs:gen_cor_word"]}
{"id": "C02", "title": "VIDPF proofs of the two aggregators agree on honest keys", "statement": "For an honestly generated key pair, after evaluating any path the evaluation proofs held by the two aggregators are equal, on and off the alpha path.", "quantifier": "all alpha, beta, seeds, paths, and hash functions", "why_tests_cant": "needs all off-path nodes at every depth", "anchors": ["src/vidpf.rs:VidpfKey::eval_bit", "src/vidpf.rs:VidpfKey::gen"]}
{"id": "C03", "title": "VidpfKey::eval returns one share per prefix and a proof that stops one bit short", "statement": "For honest keys eval(idx, pi) succeeds for 1 <= |idx| <= |alpha|; the |idx|-1 shares it returns plus the last share reconstruct beta/counter exactly at the prefixes of alpha; starting from equal pi both aggregators end with equal pi, and that pi covers only the first |idx|-1 bits of idx.", "quantifier": "all honest keys, all idx, all starting pi", "why_tests_cant": "universally quantified over idx and pi", "anchors": ["src/vidpf.rs:VidpfKey::eval"]}
{"id": "C04", "title": "eval_tree is correct and its proof transcript agrees for honest reports", "statement": "For an honest key pair and any list of non-empty attribute paths (in any order, with repetitions and with paths that are prefixes of each other) eval_tree succeeds on both aggregators, the i-th value shares add up to beta||1 if the i-th path is a prefix of alpha and 0 otherwise, the beta shares add up to beta, and both aggregators feed exactly the same bytes to the evaluation-proof hasher.", "quantifier": "all honest keys, all finite lists of paths of length 1..|alpha|", "why_tests_cant": "the node cache makes the result depend on the history of earlier paths; lists of paths are unbounded", "anchors": ["src/vidpf.rs:VidpfKey::eval_tree", "src/vidpf.rs:VidpfEvalNode::traverse"]}
{"id": "C05", "title": "eval_tree transcript equality forces consistent trees, for arbitrary (malicious) keys", "statement": "For arbitrary, possibly malicious, keys: if both aggregators absorbed the same bytes during eval_tree, then at every interior node that was traversed the reconstructed value equals the sum of the reconstructed values of its two children, and the reconstructed root counter is 1.", "quantifier": "all key pairs with key_idx false/true (not only generated ones), all path lists", "why_tests_cant": "adversarial keys cannot be enumerated", "anchors": ["src/vidpf.rs:VidpfEvalNode::traverse", "src/vidpf.rs:VidpfKey::eval_tree"]}
{"id": "C06", "title": "Seed expansion and conversion depend only on the seed", "statement": "PrgSeed::expand_dir, expand and convert return a value that depends only on the seed and the arguments, whatever was previously drawn from the thread-local PRG stream, and never panic.", "quantifier": "all seeds, all prior states of the thread-local stream, all requested lengths, both build profiles", "why_tests_cant": "the history of the thread-local state is unbounded", "anchors": ["src/prg.rs:PrgSeed::expand_dir", "src/prg.rs:PrgSeed::convert", "src/prg.rs:FixedKeyPrgStream"]}
{"id": "C07", "title": "One-sided expansion agrees with full expansion", "statement": "expand_dir(!d, d) returns on side d exactly the child seed and control bit that expand() returns on that side.", "quantifier": "all seeds, both directions", "why_tests_cant": "all 2^128 seeds", "anchors": ["src/prg.rs:PrgSeed::expand_dir"]}
{"id": "C08", "title": "The PRG byte stream does not depend on how it is read", "statement": "After set_key, any sequence of fill_bytes calls returns consecutive slices of one fixed key stream, block i being AES_0(key+i) xor (key+i), whatever the sizes of the individual reads; without debug assertions this never panics, with them it never panics when every read is at most 64 bytes (and does panic for a small read following a large one that drained the buffer).", "quantifier": "all keys, all finite sequences of read sizes", "why_tests_cant": "sequences of sizes are unbounded and interact with the two refill paths", "anchors": ["src/prg.rs:FixedKeyPrgStream::fill_bytes", "src/prg.rs:FixedKeyPrgStream::refill", "src/prg.rs:FixedKeyPrgStream::refill8"]}
{"id": "C09", "title": "A single VIDPF key hides alpha", "statement": "An aggregator that sees only its own VIDPF key should learn nothing about alpha. (The code violates this: the control bits derived by the PRG are constant, so the correction words of either key spell out alpha in the clear, for every alpha, beta and seed.)", "quantifier": "all alpha, beta, seeds; either aggregator", "why_tests_cant": "a leak is a statement about all inputs, and unit tests only check functional output", "anchors": ["src/prg.rs:PrgSeed::expand_dir", "src/vidpf.rs:gen_cor_word"]}
{"id": "C10", "title": "Both keys of a pair carry the same public part and the requested depth", "statement": "gen returns keys with key_idx false and true, identical correction words and correction seeds, as many of each as alpha has bits, every correction word having |beta|+1 field elements, and root seeds equal to the two sampled seeds.", "quantifier": "all alpha, beta, seeds", "why_tests_cant": "all inputs", "anchors": ["src/vidpf.rs:VidpfKey::gen"]}
{"id": "C11", "title": "The PRG is portable across the two counter implementations", "statement": "The x86_64 and the portable counter increment should yield the same stream so that reports generated on one kind of machine evaluate on another. (The code violates this: the two back-ends increment different halves of the block; they agree on the first block only.)", "quantifier": "all keys and block indices", "why_tests_cant": "needs two architectures", "anchors": ["src/prg.rs:FixedKeyPrgStream::inc_be"]}
{"id": "C12", "title": "u32_to_bits is the little-endian binary expansion", "statement": "For nbits <= 32, u32_to_bits(nbits, x) has length nbits, its i-th entry is bit i of x, and the weighted sum of the bits is x mod 2^nbits; for nbits > 32 it panics.", "quantifier": "all nbits and all u32 inputs", "why_tests_cant": "2^37 input pairs", "anchors": ["src/lib.rs:u32_to_bits"]}
{"id": "C13", "title": "String/bit conversion round-trips exactly on ASCII", "statement": "bits_to_string(string_to_bits(s)) = s for every ASCII byte string; for every bit vector whose length is a multiple of 8 and whose bytes are all < 128, string_to_bits(bits_to_string(b)) = b; a string with a byte >= 128 makes bits_to_string panic, as does a length that is not a multiple of 8.", "quantifier": "all byte strings and bit vectors", "why_tests_cant": "unbounded lengths", "anchors": ["src/lib.rs:string_to_bits", "src/lib.rs:bits_to_string", "src/lib.rs:bits_to_u8"]}
{"id": "C14", "title": "Keystream-to-field conversion and field encoding are canonical", "statement": "Field128 sampling reads exactly 16 bytes little-endian and reduces modulo p; the 16-byte encoding used in hashes is injective.", "quantifier": "all byte blocks, all field elements", "why_tests_cant": "2^128 values", "anchors": ["src/lib.rs:Field128::from_rng"]}
{"id": "C15", "title": "The frontier of the prefix tree stays well formed under every sequence of operations", "statement": "After any sequence of collector calls, every node of the frontier holds one evaluation state and one value per report present at tree_init, all nodes of the frontier have the same path length and pairwise distinct paths, in lexicographic order.", "quantifier": "all finite operation sequences, all (also malicious) reports", "why_tests_cant": "histories are unbounded", "anchors": ["src/collect.rs:KeyCollection::tree_init", "src/collect.rs:KeyCollection::tree_crawl", "src/collect.rs:KeyCollection::tree_prune", "src/collect.rs:KeyCollection::tree_crawl_last"]}
{"id": "C16", "title": "tree_prune keeps exactly the marked nodes, in order", "statement": "tree_prune(keep) panics if the length differs from the number of nodes and otherwise leaves exactly the nodes whose flag is true, in the same order, touching nothing else.", "quantifier": "all frontiers, all keep vectors", "why_tests_cant": "all vectors; removal by index while shrinking is a classic off-by-one", "anchors": ["src/collect.rs:KeyCollection::tree_prune"]}
{"id": "C17", "title": "A node value is the sum over the reports that are still accepted", "statement": "After tree_crawl or tree_crawl_last, the value share returned for each child is the field-wise sum of the per-report shares of exactly the reports whose honest flag is set.", "quantifier": "all collections", "why_tests_cant": "all report sets", "anchors": ["src/collect.rs:KeyCollection::make_tree_node", "src/collect.rs:KeyCollection::tree_crawl"]}
{"id": "C18", "title": "FLP verification accepts every honest report", "statement": "For a report generated by the driver's client code, both aggregators derive the same joint randomness (equal to the prover's) and the same query randomness, they reconstruct beta, and the driver's decision over the summed verifier shares is accept.", "quantifier": "all measurements, nonces, seeds, proof randomness, batches", "why_tests_cant": "all randomness", "anchors": ["src/collect.rs:KeyCollection::run_flp_queries", "src/collect.rs:KeyCollection::flp_joint_rand", "src/collect.rs:KeyCollection::flp_query_rand", "src/bin/driver.rs:generate_reports"]}
{"id": "C19", "title": "Re-crawling a level is idempotent", "statement": "Calling tree_crawl again for the same level with a non-empty malicious list and is_last=false returns the same counts and leaves the collector in the same state as the first crawl.", "quantifier": "all collector states, split sizes and malicious lists", "why_tests_cant": "all states", "anchors": ["src/collect.rs:KeyCollection::tree_crawl"]}
{"id": "C20", "title": "Threshold decision", "statement": "keep_values marks a prefix iff the reconstructed count is at least the threshold, for every reconstructed count below 2^64; larger field values are compared modulo 2^64.", "quantifier": "all share vectors, thresholds", "why_tests_cant": "2^256 share pairs", "anchors": ["src/collect.rs:KeyCollection::keep_values"]}
{"id": "C21", "title": "final_values reconstructs and drops zero counts", "statement": "final_values adds the shares component-wise, keeps the order and the path, drops exactly the entries whose reconstructed counter is zero, and panics when the two result lists differ in length or path.", "quantifier": "all result lists", "why_tests_cant": "all lists", "anchors": ["src/collect.rs:KeyCollection::final_values"]}
{"id": "C22", "title": "Weighted heavy hitters end to end", "statement": "When every accepted report is honest (any other reports being rejected by the FLP check) and some prefix of every intermediate level reaches the threshold, the complete driver run against the two aggregators terminates and yields, in lexicographic order, exactly the strings held by at least threshold accepted clients, each with its exact histogram and its exact count.", "quantifier": "all positive numbers of clients, string lengths, histogram sizes, inputs, seeds, thresholds, batch sizes and rejected reports", "why_tests_cant": "the test checks ten fixed strings", "anchors": ["src/bin/driver.rs:main", "src/bin/driver.rs:run_level", "src/bin/driver.rs:run_level_last", "src/collect.rs:KeyCollection"]}
{"id": "C23", "title": "RPC batch sizes do not influence results", "statement": "The FLP decisions sent to the aggregators and the reports uploaded do not depend on add_report_share_batch_size and query_flp_batch_size as long as they are positive: every report index is queried exactly once and in order.", "quantifier": "all batch sizes > 0, all client counts", "why_tests_cant": "all sizes; boundary batches", "anchors": ["src/bin/driver.rs:run_flp_queries", "src/bin/driver.rs:main"]}
{"id": "C24", "title": "The per-level malicious-client search removes exactly the inconsistent reports", "statement": "Starting a level with no report previously rejected and barring hash collisions, the driver's binary search over Merkle roots ends with exactly those reports rejected on both aggregators whose per-level verification strings differ, and the counts it returns exclude them.", "quantifier": "all sets of inconsistent reports, all client counts, arbitrary (malicious) keys", "why_tests_cant": "subsets of clients are exponentially many; boundaries at non powers of two", "anchors": ["src/bin/driver.rs:run_level", "src/collect.rs:KeyCollection::tree_crawl"]}
{"id": "C25", "title": "The malicious-client search never removes a consistent report", "statement": "A report whose verification strings agree should never be rejected by the search. (The code violates this as soon as some report was rejected earlier: the search yields indices into the list of remaining reports but the aggregator uses them as indices into the list of all reports.)", "quantifier": "all histories of rejections", "why_tests_cant": "depends on an earlier rejection plus a later mismatch", "anchors": ["src/collect.rs:KeyCollection::tree_crawl", "src/bin/driver.rs:run_level"]}
{"id": "C26", "title": "Malicious clients cannot crash the level search", "statement": "The level search should complete whatever the set of inconsistent reports. (The code violates this: rejected reports shrink the Merkle tree below the number of requested chunks, and rejecting all reports leaves an empty tree; both panic.)", "quantifier": "all client counts and rejection patterns", "why_tests_cant": "corner sizes", "anchors": ["src/collect.rs:KeyCollection::tree_crawl", "src/bin/driver.rs:run_level"]}
{"id": "C27", "title": "No heavy prefix yields an empty result", "statement": "When no prefix reaches the threshold the run should end with an empty result. (The code violates this at every level but the last two: the next crawl indexes an empty frontier and panics while holding the collector lock.)", "quantifier": "all inputs whose heaviest prefix is below the threshold", "why_tests_cant": "data dependent crash", "anchors": ["src/collect.rs:KeyCollection::tree_crawl", "src/bin/driver.rs:run_level"]}
{"id": "C28", "title": "A client contributes at most one to any count", "statement": "An accepted report should add at most 1 to the counter of any prefix at any level. (The code violates this: below the root the counter component is left out of the consistency check.)", "quantifier": "all (malicious) reports", "why_tests_cant": "needs adversarial correction words", "anchors": ["src/collect.rs:KeyCollection::tree_crawl"]}
{"id": "C29", "title": "A client's weight at the last level equals its verified weight", "statement": "The weight an accepted report adds to a leaf should equal the weight accepted by the FLP. (The code violates this: the last level is crawled without any value check.)", "quantifier": "all (malicious) reports", "why_tests_cant": "needs adversarial correction words", "anchors": ["src/collect.rs:KeyCollection::tree_crawl_last", "src/bin/driver.rs:run_level_last"]}
{"id": "C30", "title": "Last-level proofs of all accepted reports are compared", "statement": "Before accepting the last level the driver should compare the proof of every accepted report. (Holds when no report was rejected: the batches cover all proofs exactly once. Violated as soon as one report was rejected: the last batch runs past the end of the proof list, both aggregators answer with an empty list, and nothing in that batch is compared.)", "quantifier": "all client counts, rejection counts and batch sizes", "why_tests_cant": "boundary between accepted count and client count", "anchors": ["src/collect.rs:KeyCollection::get_proofs", "src/bin/driver.rs:run_level_last"]}
{"id": "C31", "title": "Every heavy hitter is printed", "statement": "The driver should print every heavy hitter of final_values. (The code violates this: it prints a heavy hitter only if its last histogram bucket is non-zero.)", "quantifier": "all result lists", "why_tests_cant": "depends on data", "anchors": ["src/bin/driver.rs:run_level_last"]}
{"id": "C32", "title": "Simulated malicious reports really are malformed", "statement": "A report the driver announces as malicious should differ from the honest one. (Violated for the VIDPF branch: it tweaks a copy of the root seed; the FLP and Prio3 branches do change the report.)", "quantifier": "all reports, all random choices", "why_tests_cant": "a no-op is invisible to functional tests", "anchors": ["src/bin/driver.rs:add_reports", "src/vidpf.rs:VidpfKey::get_root_seed"]}
{"id": "C33", "title": "Rejected reports are excluded from attribute-based metrics", "statement": "attribute_based_metrics_result should aggregate exactly the validated reports that are not in the rejected list. (Holds in builds with debug assertions when no index is listed twice; a report failing both checks is listed twice and panics there; in release builds the rejected list is ignored altogether.)", "quantifier": "all collector states, all rejected lists, both build profiles", "why_tests_cant": "build-profile dependent side effect inside an assertion", "anchors": ["src/bin/server.rs:attribute_based_metrics_result", "src/bin/driver.rs:run_attribute_based_metrics"]}
{"id": "C34", "title": "Attribute-based results are per batch", "statement": "The aggregate returned for start..end should cover exactly the reports of that range. (Holds for the first batch; violated from the second batch on: the state of earlier batches is never cleared, so batch k returns the total over all batches up to k.)", "quantifier": "all batch sequences", "why_tests_cant": "needs at least two batches", "anchors": ["src/bin/server.rs:attribute_based_metrics_result", "src/bin/server.rs:attribute_based_metrics_validate"]}
{"id": "C35", "title": "Sampling the attribute set never fails", "statement": "Choosing attributes among the generated reports should never go out of bounds. (Violated: the Zipf sample ranges over 1..=n but is used as a 0-based index, so the first report is never chosen and the value n panics.)", "quantifier": "all samples", "why_tests_cant": "low-probability value", "anchors": ["src/bin/driver.rs:main"]}
{"id": "C36", "title": "Plain metrics bookkeeping", "statement": "plain_metrics_result consumes the preparation state of exactly the indexed reports; accepted plus rejected equals end-start; both aggregators agree on the rejected count and the reconstructed histogram is that of the accepted reports, when the underlying Prio3 is correct; asking twice for the same range panics.", "quantifier": "all ranges, all report sets, all (in)valid peer shares", "why_tests_cant": "state machine over unbounded histories", "anchors": ["src/bin/server.rs:plain_metrics_validate", "src/bin/server.rs:plain_metrics_result", "src/bin/driver.rs:run_plain_metrics"]}
{"id": "C37", "title": "Upload delivers every report to both aggregators in the same order", "statement": "For a positive batch size the upload loop terminates and each aggregator ends up with exactly num_clients reports, the i-th ones being the two shares of the same plaintext report; with batch size 0 and at least one client the loop never terminates.", "quantifier": "all client counts and batch sizes", "why_tests_cant": "all sizes; non-termination", "anchors": ["src/bin/driver.rs:main", "src/bin/driver.rs:add_reports"]}
{"id": "C38", "title": "reset forgets all history", "statement": "After reset with a valid histogram size, an aggregator that has not panicked behaves exactly like a freshly started one with the given verify key, whatever happened before.", "quantifier": "all request histories", "why_tests_cant": "unbounded histories", "anchors": ["src/bin/server.rs:reset", "src/collect.rs:KeyCollection::new"]}
{"id": "C39", "title": "A panic inside a request disables the aggregator for good", "statement": "Once a handler panics while holding the collector lock every later request, including reset, fails and no request ever changes state again; requests that fail before taking the lock do not have this effect.", "quantifier": "all request sequences after the panic", "why_tests_cant": "unbounded histories", "anchors": ["src/bin/server.rs:CollectorServer"]}
{"id": "C40", "title": "A rejected report is never re-admitted", "statement": "Between resets, no sequence of collector requests turns a report that was marked as rejected back into an accepted one, and the list of reports only grows.", "quantifier": "all request sequences", "why_tests_cant": "unbounded histories", "anchors": ["src/collect.rs:KeyCollection::apply_flp_results", "src/collect.rs:KeyCollection::tree_crawl"]}
{"id": "C41", "title": "apply_flp_results rejects exactly the failing reports", "statement": "apply_flp_results(keep) panics if the length differs from the number of reports and otherwise clears the flag of exactly the reports whose entry is false, leaving earlier rejections in place.", "quantifier": "all collections and keep vectors", "why_tests_cant": "all vectors", "anchors": ["src/collect.rs:KeyCollection::apply_flp_results"]}
{"id": "C42", "title": "The per-level value check compares the full field element", "statement": "Two value checks that differ should yield different check strings. (Violated: only the low 8 of the 16 encoded bytes enter the check, and all components and prefixes are xored together, so different checks collide without any hash collision.)", "quantifier": "all check vectors", "why_tests_cant": "needs crafted field values", "anchors": ["src/collect.rs:KeyCollection::tree_crawl"]}
{"id": "C43", "title": "Honest reports pass every level check", "statement": "For an honest report the per-level verification strings computed by the two aggregators are equal at every level and for every frontier, whatever the other reports are.", "quantifier": "all honest reports, frontiers, levels and other clients", "why_tests_cant": "all frontiers", "anchors": ["src/collect.rs:KeyCollection::tree_crawl"]}
{"id": "C44", "title": "The Merkle tree covers all reports", "statement": "The number of leaves computed from ceil(log2(n)) in f32 should be at least the number of accepted reports. (Holds for correctly rounded f32 log2 up to 2^21 reports; violated at 2^21+1, where the last report escapes the root comparison.)", "quantifier": "all report counts", "why_tests_cant": "needs more than two million reports", "anchors": ["src/collect.rs:KeyCollection::tree_crawl"]}
{"id": "C45", "title": "The driver's level search terminates whatever the aggregators answer", "statement": "run_level performs at most ceil(log2(num_clients)) + 3 crawls for any (even Byzantine) answers.", "quantifier": "all answer sequences", "why_tests_cant": "adversarial answers", "anchors": ["src/bin/driver.rs:run_level"]}
{"id": "C46", "title": "FLP checks run in every configuration", "statement": "Every weighted-heavy-hitters run should verify FLP proofs. (Violated for data_bits = 1: the loop that triggers the check is empty, so invalid weights are accepted.)", "quantifier": "all configurations", "why_tests_cant": "corner configuration", "anchors": ["src/bin/driver.rs:main"]}
{"id": "C47", "title": "Malformed reports cannot take an aggregator down", "statement": "A report with too few correction words, of the wrong type, or with an FLP proof share of the wrong length should be rejected. (Violated: it makes the handler panic and disables the aggregator.)", "quantifier": "all reports", "why_tests_cant": "adversarial reports", "anchors": ["src/vidpf.rs:VidpfKey::eval_bit", "src/collect.rs:KeyCollection::tree_init", "src/collect.rs:KeyCollection::run_flp_queries"]}
{"id": "C48", "title": "Requests to different aggregators commute", "statement": "Any interleaving of two request sequences addressed to the two aggregators gives the same responses and final states as running one after the other.", "quantifier": "all interleavings", "why_tests_cant": "schedules", "anchors": ["src/bin/server.rs:CollectorServer", "src/bin/driver.rs:main"]}
{"id": "C49", "title": "xor and vector helpers obey their algebra on the common length", "statement": "xor_vec/xor_three_vecs return the pointwise xor truncated to the shortest input; xor_in_place, vec_add, vec_sub keep the length of the destination and change only the common prefix; vec_neg is an involution; xoring twice cancels.", "quantifier": "all vectors", "why_tests_cant": "all vectors", "anchors": ["src/lib.rs:xor_vec", "src/lib.rs:vec_add", "src/lib.rs:vec_sub", "src/lib.rs:vec_neg", "src/lib.rs:xor_in_place", "src/lib.rs:xor_three_vecs"]}
{"id": "C50", "title": "take removes and returns exactly one element", "statement": "take(v, i) returns None and leaves v unchanged if i is out of range, otherwise returns v[i] and leaves a permutation of the remaining elements in which the last element moved into the hole.", "quantifier": "all vectors and indices", "why_tests_cant": "all vectors", "anchors": ["src/lib.rs:take"]}
{"id": "C51", "title": "Exact outcome of a complete run with arbitrary reports", "statement": "For any reports with evaluable keys, a complete run of weighted heavy hitters returns exactly the list, or ends with exactly the panic, given by a description that mentions only FLP verdicts, per-level consistency of the reports, the positions cleared by the search, counters modulo 2^64 at the surviving prefixes, the proofs compared at the last level and the sums of the remaining values. In particular one rejected report together with one inconsistent one can crash the run.", "quantifier": "all configurations, report lists (honest or not), thresholds, batch sizes and depths", "why_tests_cant": "unbounded report lists and arbitrary adversarial keys", "anchors": ["src/bin/driver.rs:main", "src/bin/driver.rs:run_level", "src/bin/driver.rs:run_level_last", "src/collect.rs:KeyCollection::tree_crawl"]}
{"id": "C52", "title": "Complete runs of attribute-based metrics", "statement": "A complete run of attribute-based metrics prints one table per query batch. For arbitrary evaluable reports each table holds, per attribute, the sum of the values of all reports from the first one to the end of the batch; a debug build leaves out those failing the weight check or the transcript comparison and panics iff some report fails both, a release build keeps all. With honest clients every cell is the exact number of uploads with that string and bucket, the attributes are the strings of the sampled clients, each once, and nothing panics.", "quantifier": "all configurations, non-empty client lists, upload choices, samples, batch sizes and HashSet orders", "why_tests_cant": "unbounded client lists and batch sizes; both build profiles", "anchors": ["src/bin/driver.rs:run_attribute_based_metrics", "src/bin/driver.rs:main", "src/bin/server.rs:attribute_based_metrics_validate", "src/bin/server.rs:attribute_based_metrics_result"]}
{"id": "C53", "title": "Complete runs of plain metrics", "statement": "A complete run of plain metrics prints, per query batch, the histogram of the accepted reports of exactly that batch and the number of rejected ones. With honest clients and spoilt uploads that Prio3 rejects, each bucket is the exact number of unspoilt uploads with that bucket, and nothing panics.", "quantifier": "all configurations, non-empty client lists, upload choices and batch sizes", "why_tests_cant": "unbounded client lists and batch sizes", "anchors": ["src/bin/driver.rs:run_plain_metrics", "src/bin/driver.rs:main", "src/bin/server.rs:plain_metrics_validate", "src/bin/server.rs:plain_metrics_result"]}
{"id": "C54", "title": "What the evaluation proofs hash", "statement": "The string form of a path is one ASCII digit per bit; the preimage hashed at a node (digits followed by the fixed-length seed) determines path and seed; the proof of a path is the proof of the path one bit shorter updated with the hash of exactly that preimage, corrected by the key's word of that level iff the control bit is set.", "quantifier": "all bit strings, seeds, keys, paths and hash functions", "why_tests_cant": "unbounded paths; swapping the two digits or the order of the parts keeps both aggregators consistent, so round-trip tests pass", "anchors": ["src/lib.rs:bits_to_bitstring", "src/vidpf.rs:eval_bit"]}
{"id": "C55", "title": "Every bit of a root seed matters", "statement": "Two keys with different root seeds evaluate differently (all 128 seed bits are used). False: the two lowest bits of the first byte have no influence on the correction words or on any evaluation of the key.", "quantifier": "all keys, seeds, paths and lists of paths, both build profiles", "why_tests_cant": "quantifies over all keys and all evaluations", "anchors": ["src/prg.rs:expand_dir", "src/prg.rs:expand", "src/vidpf.rs:gen", "src/vidpf.rs:eval", "src/vidpf.rs:eval_tree"]}
{"id": "C57", "title": "A client cannot change its own weight in attribute-based metrics", "statement": "In attribute-based metrics a report that passes the weight check and the transcript comparison contributes exactly the checked weight at its own string. False: whenever the sibling of its string is not an attribute, the client can replace the last correction word so that both checks still pass and the contribution moves by elements derived from a seed it chooses, in every table from that report on.", "quantifier": "all honest reports, attribute lists, seeds, run lengths, batch sizes and build profiles", "why_tests_cant": "adversarial client; unbounded runs", "anchors": ["src/vidpf.rs:eval_tree", "src/bin/server.rs:attribute_based_metrics_validate", "src/bin/driver.rs:run_attribute_based_metrics"]}
{"id": "C56", "title": "Only strings above the configured fraction are reported", "statement": "A run of weighted heavy hitters reports exactly the strings that more than the configured fraction of the clients hold. False: the f64 product of fraction and number of clients is truncated, so strings below the fraction are reported whenever the fractional part of the product is positive and at most one half. What holds: every string held by at least the fraction (and by someone) is reported, and a reported string is held by more than the fraction less one client.", "quantifier": "all binary64 thresholds below 2^52, all numbers of clients below 2^53 with a product below 2^51, all honest complete runs", "why_tests_cant": "binary64 rounding over all thresholds and client counts", "anchors": ["src/bin/driver.rs:run_level", "src/bin/driver.rs:run_level_last", "src/config.rs:Config"]}
{"id": "C58", "title": "Chunk length of plain metrics is the integer square root", "statement": "For fewer than 2^52 buckets the chunk length computed through f64 is the integer square root of the number of buckets; for larger usize values it can be too large.", "quantifier": "all bucket counts below 2^52", "why_tests_cant": "rounding of the square root over 2^52 arguments", "anchors": ["src/lib.rs:histogram_chunk_length"]}
{"id": "C59", "title": "Two drivers do not disturb each other", "statement": "Two drivers can use the same pair of aggregators at the same time: shares at equal positions belong to the same report, and neither driver can make the other's requests fail. False: reports are paired by order of arrival only, so any difference in the arrival order pairs shares of different reports; a reset or an upload between tree_init and the weight check makes the next request panic and disables the aggregator for good.", "quantifier": "all aggregator states, reports, orders of arrival and later requests", "why_tests_cant": "all interleavings of requests", "anchors": ["src/bin/server.rs:reset", "src/bin/server.rs:add_report_shares", "src/collect.rs:run_flp_queries", "src/collect.rs:make_tree_node"]}
{"id": "C60", "title": "Proof shares hide the proof", "statement": "The share of the proof that one aggregator receives has the same distribution whatever the proof is. True of aggregator 0. False, by a little, of aggregator 1: each entry is masked with a u128 reduced modulo p, and 2^128 is not a multiple of p, so any two different proofs have a share that is more likely under one than under the other. What holds: every share is possible under every proof, and no test on the share tells two proofs of k entries apart with an advantage of k parts in 2^59 or more.", "quantifier": "all proofs, all draws of the client, all tests an aggregator can run on its share", "why_tests_cant": "a statement about the number of draws among 2^(128k)", "anchors": ["src/bin/driver.rs:generate_reports"]}
{"id": "C61", "title": "A report accepted in attribute-based metrics counts for exactly one string", "statement": "If the transcripts of both aggregators agree and the weight check passes, the report contributes the checked weight at the prefixes of one string and nothing elsewhere, whatever keys the client made up. False in general: no aggregator rejects zero hashes, and with them a client can spread its weight evenly over all strings that fit a pattern. True if both keys carry the same public part without zero hashes, the siblings of the nodes on the way to the attribute are looked at, and no two hashes or generator outputs compared in this evaluation coincide by accident; then the tables of a run are those of a list of single votes.", "quantifier": "all keys, attribute lists, run lengths and batch sizes", "why_tests_cant": "adversarial keys; unbounded trees and runs", "anchors": ["src/vidpf.rs:eval_tree", "src/vidpf.rs:eval_bit", "src/bin/server.rs:attribute_based_metrics_validate", "src/bin/driver.rs:run_attribute_based_metrics"]}
{"id": "C62", "title": "Different public parts for the two aggregators", "statement": "A report whose client gives the two aggregators different correction words, and which passes the weight check and the transcript comparison, still contributes only its checked weight at every attribute. False: whenever the attributes of full length are at most its string and the sibling, the client can choose any weights u; the report counts u at its string and the checked weights minus u at the sibling, unchanged elsewhere, in every table from that report on.", "quantifier": "all honest reports, weights u, attribute lists, run lengths, batch sizes and build profiles", "why_tests_cant": "adversarial client; unbounded runs", "anchors": ["src/vidpf.rs:eval_tree", "src/bin/server.rs:attribute_based_metrics_validate", "src/bin/driver.rs:run_attribute_based_metrics"]}
{"id": "C63", "title": "The work of an aggregator is bounded by accepted reports over threshold", "statement": "In weighted heavy hitters the frontier after every level, and the result, have at most (accepted reports)/threshold entries. True if all accepted reports are honest; false with a single dishonest one: whenever the threshold is at most one above the number of honest strings with first bit b, one client can make all 2^(bits-1) strings starting with b results, whatever the honest reports are.", "quantifier": "all report lists, string lengths, thresholds, numbers of levels, batch sizes, first bits and counters", "why_tests_cant": "unbounded runs; adversarial client; exponential blow-up", "anchors": ["src/bin/driver.rs:run_level", "src/collect.rs:tree_prune", "src/collect.rs:keep_values", "src/vidpf.rs:eval_bit"]}
{"id": "C64", "title": "The generator returned by to_rng", "statement": "PrgSeed::to_rng gives the consecutive bytes of AES-128 in counter mode (little-endian 128-bit counter from 0) under the seed, whatever sizes and kinds of draws are made, and filling a buffer does not depend on what the buffer contained. The first half holds when all buffers are zero; the second is false: a debug build panics on every non-zero buffer, a release build xors the key stream into it, so any two different buffers give different results.", "quantifier": "all seeds, block ciphers, sequences of draws, buffers and build profiles", "why_tests_cant": "unbounded sequences of draws; no test calls to_rng", "anchors": ["src/prg.rs:to_rng", "src/prg.rs:PrgStream"]}
{"id": "C65", "title": "The repository's own tests pass for all randomness", "statement": "Each test of the repository, as a program over the modelled functions, ends without a failed assertion for every choice of its seeds, keys and verification key; more generally dpf_complete for every length, point and weight, the eval_tree test for every string, weight and attribute list, the collect tests for every list of voters with the exact results, the FLP test for every number of buckets and all measurements in range.", "quantifier": "all seeds, verification keys, strings, weights, numbers of voters, thresholds and lengths", "why_tests_cant": "each run of a test fixes one choice of the random seeds and one list of strings", "anchors": ["tests/dpf_test.rs:dpf_complete", "tests/collect_test.rs:collect_test_eval_groups", "tests/collect_test.rs:collect_test_eval_full_groups", "tests/flp_test.rs:histograms", "src/vidpf.rs:mode_attribute_based_metrics", "src/lib.rs:tests"]}
{"id": "C66", "title": "The driver learns only the totals above the threshold", "statement": "A driver that controls neither aggregator obtains from two aggregators that run the server code only the totals of prefixes supported by at least threshold accepted reports; in particular it cannot obtain the string of a single client.", "quantifier": "all reports, thresholds, points of a run and choices of requests by the driver", "why_tests_cant": "a test runs the honest driver; the property is about all requests a driver could send", "anchors": ["src/bin/server.rs:apply_flp_results", "src/bin/server.rs:tree_init", "src/collect.rs:apply_flp_results", "src/bin/driver.rs:run_level"]}
{"id": "C67", "title": "The order of the uploads does not matter", "statement": "The result of weighted heavy hitters (the list of results or the panic) is the same for every order of the same reports and all batch sizes; a higher threshold only removes results below it.", "quantifier": "all lists of reports, permutations, thresholds and batch sizes", "why_tests_cant": "the number of orders grows factorially and a failure needs a rejected and an inconsistent report in particular positions", "anchors": ["src/collect.rs:tree_crawl", "src/collect.rs:apply_flp_results", "src/bin/driver.rs:run_level"]}
{"id": "C68", "title": "A report counts once", "statement": "A report that is uploaded several times contributes once to every count.", "quantifier": "all lists of reports and numbers of repetitions", "why_tests_cant": "no test uploads a report twice, and the effect at a given threshold needs that many copies", "anchors": ["src/bin/server.rs:add_report_shares", "src/collect.rs:add_report_share"]}
{"id": "C69", "title": "The three modes agree", "statement": "For the same clients: an attribute of the attribute-based table is a weighted heavy hitter iff its weights add up to at least the threshold, with the same weights; the plain-metrics histograms of the batches add up to the same numbers as the results of weighted heavy hitters with threshold 1.", "quantifier": "all lists of clients, strings, buckets, batch sizes, attribute samples, randomness and both build profiles", "why_tests_cant": "a test compares the modes on one list of clients only", "anchors": ["src/bin/driver.rs:main", "src/bin/server.rs:attribute_based_metrics_result", "src/bin/server.rs:plain_metrics_result"]}
{"id": "C70", "title": "One aggregator cannot lower the threshold", "statement": "With an honest driver and one honest aggregator, the other aggregator cannot make the run report strings that fewer than threshold clients hold, nor learn them.", "quantifier": "all reports, thresholds, configurations, randomness and both build profiles", "why_tests_cant": "no test replaces an aggregator by a dishonest one", "anchors": ["src/bin/driver.rs:run_level", "src/bin/driver.rs:run_level_last", "src/collect.rs:keep_values"]}
{"id": "C71", "title": "Every run ends", "statement": "Whatever the configuration, a run of the driver ends, with a result or a panic; no loop goes round for ever.", "quantifier": "all configurations, clients, uploads, aggregator states, modes and both build profiles", "why_tests_cant": "the tests never run the driver, and an endless loop is not a failed assertion", "anchors": ["src/bin/driver.rs:run_flp_queries", "src/bin/driver.rs:run_level_last", "src/bin/driver.rs:main", "src/config.rs"]}
{"id": "C72", "title": "Scheduling does not matter", "statement": "However rayon schedules the closures of its parallel iterators over the threads, whose pseudorandom streams are thread-local and reused, every handler and the report generation give the result of the sequential computation; the iteration order of hash maps does not matter either.", "quantifier": "all schedules, numbers of threads, earlier uses of the thread-local streams, requests, aggregator states and clients", "why_tests_cant": "a test sees a few schedules of one machine", "anchors": ["src/prg.rs:FIXED_KEY_STREAM", "src/collect.rs:make_tree_node", "src/collect.rs:tree_crawl", "src/bin/server.rs:attribute_based_metrics_validate", "src/bin/driver.rs:generate_reports"]}
{"id": "C73", "title": "Simultaneous requests are answered one after the other", "statement": "An aggregator that serves any number of requests at the same time, with handlers interleaved in any way, gives the answers and reaches the collector state of some sequential order of these requests that respects which request was answered before which other one started; it never deadlocks and every request is answered or panics.", "quantifier": "all interleavings, numbers and kinds of requests, aggregator states and thread schedules", "why_tests_cant": "the order in which futures and threads take a lock is not under the control of a test", "anchors": ["src/bin/server.rs:main", "src/bin/server.rs:CollectorServer", "src/bin/server.rs:tree_crawl"]}
{"id": "C74", "title": "The proof system of the histogram type", "statement": "The proof system behind prove, query and decide is complete (a proof for a unit vector is accepted at every usable query point, however it is shared) and sound (for a fixed input that is not a unit vector, and proofs that may depend on the joint randomness, less than a fraction (len + 2 + 4 n)/p of the randomness accepts, n being the number of chunks); a proof with a changed first entry is refused except at fewer than 2 n points.", "quantifier": "all numbers of buckets, chunk lengths, inputs, proofs, sharings, prover and joint randomness and query points", "why_tests_cant": "the field has 2^128 elements and soundness is a statement about all proofs", "anchors": ["src/lib.rs:MasticHistogram", "src/lib.rs:Mastic::prove", "src/lib.rs:Mastic::query", "src/lib.rs:Mastic::decide"]}
{"id": "C75", "title": "Runs with the real proof system", "statement": "With the proof system of the histogram type, a complete weighted heavy-hitters run outputs exactly the strings whose counted uploads reach the threshold with their histograms, and attribute-based metrics prints exactly the tables of the counted uploads; uploads with spoilt proofs are refused. No assumption about proofs is left, only that the query points avoid the interpolation points and the roots of one polynomial.", "quantifier": "all clients, choices, thresholds, batch sizes, seeds and reachable aggregator states", "why_tests_cant": "a test runs one configuration and one choice of randomness", "anchors": ["src/bin/driver.rs:main", "src/collect.rs:run_flp_queries", "src/lib.rs:MasticHistogram"]}
{"id": "C76", "title": "Weights are fixed before the joint randomness", "statement": "A client cannot choose its weights depending on the joint randomness, so that only unit vectors pass the proof check but for a negligible fraction of the randomness. (False: the joint randomness depends on the root seeds and the nonce only; exactly the weights for which the two checks cancel are accepted, and a run counts them.)", "quantifier": "all clients, buckets, seeds, environments and runs", "why_tests_cant": "a test runs the honest client, or one with a random error", "anchors": ["src/bin/driver.rs:generate_reports", "src/collect.rs:flp_joint_rand", "src/lib.rs:Mastic::prove"]}
{"id": "C77", "title": "The whole system under any scheduling", "statement": "However the steps of the driver, of the two aggregators, of the requests under way and of all their threads interleave, a complete run in any of the three modes never gets stuck, does not go on for ever, and ends with the result of the sequential program and with the aggregators in its final states; or with a panic of the driver, if the sequential program panics.", "quantifier": "all environments, clients, choices, configurations, states of the aggregators and executions of the system", "why_tests_cant": "a test sees one interleaving per run; there are exponentially many, and errors from interleavings are rare", "anchors": ["src/bin/driver.rs:main", "src/bin/driver.rs:run_level", "src/bin/server.rs:main", "src/bin/server.rs:CollectorServer"]}
{"id": "C78", "title": "Same joint randomness at both aggregators", "statement": "Whatever parts of the joint randomness a client advertises, the two aggregators check its proof with the same joint randomness, or refuse it. (False: each recomputes its own part and trusts the advertised other one, and the results are not compared; with different second values any weights at all are accepted, with proof shares chosen before the verify key. If they use the same values, acceptance is that of C74.)", "quantifier": "all clients, weights, advertised parts, verify keys, environments and runs", "why_tests_cant": "a test runs clients that advertise the right parts; the forged proof shares solve an equation", "anchors": ["src/collect.rs:flp_joint_rand", "src/collect.rs:run_flp_queries"]}
{"id": "C79", "title": "Plain metrics with Prio3 itself", "statement": "With Prio3 itself in place of an arbitrary preparation: sharding succeeds, honest uploads are prepared by both aggregators to shares of their bucket, spoilt uploads are refused at all but few query points, and a complete run prints per batch the histogram of the honest uploads and the number of spoilt ones. Whatever a client uploads, if both aggregators finish, both checked it with the same joint randomness, derived from both measurement shares (unlike C78).", "quantifier": "all histogram lengths, environments, verify keys, clients, uploads, batch sizes; for the last part all byte strings", "why_tests_cant": "a test runs a few random clients; acceptance is a statement about polynomials over a 128-bit field and about every byte string a client may send", "anchors": ["src/bin/driver.rs:generate_reports", "src/bin/driver.rs:run_plain_metrics", "src/bin/server.rs:plain_metrics_validate", "src/bin/server.rs:plain_metrics_result"]}
{"id": "C80", "title": "A report rejected by one aggregator is not counted", "statement": "In plain metrics the printed histogram should be the sum over the reports both aggregators accept. It is not: the driver compares only how many reports each aggregator rejected in a batch. The exact outcome, whatever the verdicts: if the numbers agree in every batch the printed histogram is the sum of what each has accepted, otherwise the driver panics. If the aggregators agree on every report the histogram is the right one; with Prio3 itself they disagree only on a report whose check passes although they used different joint randomness.", "quantifier": "all environments, reports, verdicts, batch sizes and histogram lengths", "why_tests_cant": "tests only use reports on which the aggregators agree", "anchors": ["src/bin/driver.rs:run_plain_metrics", "src/bin/server.rs:plain_metrics_result"]}
{"id": "C81", "title": "One aggregator cannot drop clients unnoticed", "statement": "An aggregator that follows the protocol except for its answers to the FLP queries cannot remove the report of an honest client from the result without the driver or the other aggregator seeing a difference to a run without that client.", "quantifier": "all proof systems and all changes of the answers (exact outcome); all environments, either aggregator, all sets of accepted reports, all batch sizes and thresholds (refutation with the histogram proof system)", "why_tests_cant": "The tests and the simulated clients only ever change what clients upload; no test runs a dishonest aggregator, and the claim is about every way of answering and every set of victims.", "anchors": ["src/bin/driver.rs:340-385", "src/bin/server.rs run_flp_queries", "src/collect.rs:244-337"]}
{"id": "C82", "title": "An aggregator's view of a run is its own shares, the verdicts and the heavy prefixes", "statement": "With an honest driver and an honest second aggregator, the requests that an aggregator receives in a weighted-heavy-hitters run are determined by its own report shares, the batch sizes, the FLP verdicts and the set of heavy prefixes; two runs with the same verdicts and heavy prefixes send the same requests after the uploads, whatever the weights, the shares and the strings below the threshold.", "quantifier": "all environments, all uploaded reports whose accepted ones are honest, all string lengths, batch sizes and thresholds, complete runs and runs that break off", "why_tests_cant": "The claim compares all pairs of runs over all clients; tests only look at the results of a few runs and not at the requests.", "anchors": ["src/bin/driver.rs:246-537", "src/bin/driver.rs:752-768"]}
{"id": "C83", "title": "One aggregator cannot change metrics tables and histograms unnoticed", "statement": "If the driver, the clients and one aggregator follow the protocol, the tables of attribute-based metrics and the histograms of plain metrics are those of the uploads whatever the other aggregator answers. False: the driver adds up the two aggregate shares as they come, so either aggregator can add any numbers to any cells of the table or histogram of any batch and the program ends exactly as it would have otherwise. What the driver does check is the form and length of the answers, that no verifier is malformed, and for plain metrics that the two numbers of rejected reports are equal.", "quantifier": "both aggregators, all additions to all cells and batches, all environments, configurations, clients, uploads, samples and aggregator states; for the checks all answers of both aggregators", "why_tests_cant": "Tests run honest aggregators; the claim is about every dishonest answer.", "anchors": ["src/bin/driver.rs:539-612", "src/bin/driver.rs:614-686"]}
{"id": "C84", "title": "One aggregator cannot change the printed counts of the heavy hitters unnoticed", "statement": "If the driver, the clients and one aggregator follow the protocol, the counts printed for the heavy hitters are those of the uploads whatever the other aggregator answers. False: the final shares are added up as they come, so either aggregator can add any numbers to the counts of any printed string, or make it disappear, and the program ends exactly as it would have otherwise. What the driver does check at the last level is the number and form of the vectors, that the answers to each request for proofs are equal, and that the final shares are for the same strings.", "quantifier": "both aggregators, all additions to all counts, all environments, configurations, clients, uploads and aggregator states; for the checks all answers of both aggregators", "why_tests_cant": "Tests run honest aggregators; the claim is about every dishonest answer.", "anchors": ["src/bin/driver.rs:465-537", "src/collect.rs:608-643"]}
{"id": "C85", "title": "One aggregator cannot have a valid report left out of the tables of attribute-based metrics", "statement": "If the driver, the clients and one aggregator follow the protocol, the table of every batch of attribute-based metrics counts every valid upload whatever the other aggregator answers when the reports are validated. False in debug builds: an aggregator that sends a different evaluation proof for chosen valid uploads has exactly these left out, and the run ends normally; a chosen upload that is invalid anyway is rejected twice, which ends the run. True in release builds, where no lie about the validation changes the result, because no verdict is ever applied there.", "quantifier": "both aggregators, all sets of uploads, all changes to the proofs, all honest clients, configurations, batch sizes and samples; in release builds all lies about the validation, all clients and all aggregator states", "why_tests_cant": "Tests run honest aggregators; the claim is about every choice of uploads to suppress.", "anchors": ["src/bin/driver.rs:539-612", "src/bin/server.rs:150-224"]}
{"id": "C86", "title": "One aggregator cannot have a valid report left out of the histograms of plain metrics", "statement": "If the driver, the clients and one aggregator follow the protocol, the histogram of every batch of plain metrics counts every valid upload whatever the other aggregator answers. False: an aggregator that sends for chosen valid uploads preparation shares with which the other one rejects them, leaves its output shares of them out of its sum and counts them as rejected, has exactly these left out, and the run ends normally with these counted as rejected. If it changes its preparation shares only, the numbers of rejected reports differ and the driver stops.", "quantifier": "both aggregators, all sets of uploads, all changes to the preparation shares that lead to rejection, all clients, configurations and batch sizes; debug and release builds", "why_tests_cant": "Tests run honest aggregators; the claim is about every choice of uploads to suppress.", "anchors": ["src/bin/driver.rs:614-686", "src/bin/server.rs:227-319"]}
{"id": "C87", "title": "One aggregator cannot overturn the FLP verdict on a report in weighted heavy hitters", "statement": "If the driver, the clients and one aggregator follow the protocol, whether an upload is counted in weighted heavy hitters does not depend on what the other aggregator answers to the FLP queries. False: the driver adds up the two shares of each verifier and neither is checked against anything, so an aggregator that alters its shares decides, within what the sum allows, which uploads are counted: the run ends normally and prints the heavy hitters and histograms of exactly these, valid ones vetoed and ones with wrong proofs let in. With strings of one bit the answers to the FLP queries have no effect whatever, since the driver does not ask for them.", "quantifier": "both aggregators, all alterations of verifier shares on which the driver reaches a decision, all clients, uploads, bit lengths, thresholds, batch sizes; debug and release builds", "why_tests_cant": "Tests run honest aggregators; the claim is about every alteration of the verifier shares of every set of uploads.", "anchors": ["src/bin/driver.rs:340-385", "src/collect.rs:KeyCollection::run_flp_queries", "src/collect.rs:KeyCollection::apply_flp_results", "src/bin/driver.rs:752-763"]}
{"id": "C88", "title": "What an aggregator learns from the requests in the two kinds of metrics", "statement": "In a complete run of attribute-based metrics an aggregator receives, besides the verification key and its own report shares, only requests that can be written down from the attributes and from which uploads fail a check; both aggregators receive the same ones. In a run of plain metrics that ends with tables it receives, besides the key and its own report shares, the batch boundaries and the preparation shares the other aggregator computed for the same reports, in order, and nothing else.", "quantifier": "attribute-based metrics: all honest clients, uploads with spoilt proofs, samples, orders of the attributes, batch sizes; plain metrics: all uploads whatever, sharding functions, batch sizes, for every run that ends normally; debug and release builds", "why_tests_cant": "Tests look at outputs of single runs; the claim is about the complete list of requests of every run.", "anchors": ["src/bin/driver.rs:539-612", "src/bin/driver.rs:614-686", "src/bin/driver.rs:752-800", "src/bin/server.rs:227-319"]}
{"id": "C89", "title": "The printed tables of the metrics modes do not single out a client", "statement": "What the driver prints in attribute-based and plain metrics are totals over many clients; no printed number can be attributed to one client. False: one table is printed per query batch, and nothing keeps a batch from holding a single report. With batches of one, or when the number of uploads is one more than a multiple of the batch size, a printed histogram of plain metrics is the vote of one client, and in attribute-based metrics the difference of two consecutive tables is. What does hold: the tables depend on nothing but the votes within each batch, whoever cast them and in whatever order.", "quantifier": "all honest clients, uploads (some with spoilt proofs), batch sizes, positions of the upload, attributes, verification keys; debug and release builds", "why_tests_cant": "Tests do not look at what can be inferred from outputs, and a few runs cannot show that outputs depend on nothing else.", "anchors": ["src/bin/driver.rs:539-612", "src/bin/driver.rs:614-686", "src/bin/server.rs:168-319"]}
