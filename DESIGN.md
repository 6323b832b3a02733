# Formal model of TrustworthyComputing/mastic in Rocq (Coq 8.16.1)

The model covers the Rust sources in `/repo/src` that compute something: VIDPF, its PRG, the aggregator
state machine with all its handlers, and the driver with its three modes of operation.  All theorems hold
for all inputs, all states the property speaks about and both build profiles; none is bounded.

## 1. Trusted base

1. Coq's kernel (`coqc`, re-checked by `coqchk`).  `vm_cast_no_check` is used for concrete `Example`s; the
   cast is checked by the kernel at `Qed` like any other.  No kernel check is switched off and there is no
   `Admitted`, no axiom, no section-less `Variable`, no functor and no plugin.
2. `Print Assumptions` stands beneath every property theorem.  It answers `Closed under the global context`
   for all of them except the five of `PropMerkle.v` (C44) about the float computation, which use Coq's real numbers and list
   `ClassicalDedekindReals.sig_not_dec`, `ClassicalDedekindReals.sig_forall_dec`,
   `FunctionalExtensionality.functional_extensionality_dep` and `Classical_Prop.classic`, all from the
   standard library.
3. The reading of the Rust source: the model was written by hand, function by function; each definition
   cites the lines it models.  Nothing checks this translation mechanically (the sandbox cannot build the
   code).
4. The environment record of `Env.v` stands for the external crates.  It is universally quantified; a theorem
   that needs something from it says so:
   - `env_ok`: output lengths and byte ranges of AES, BLAKE3 and the XOF (guaranteed by their Rust types);
   - `flp_complete`: completeness of the prio FLP for the measurement, proof randomness and query
     randomness of the run at hand (C18, C22, C27, C52); the stand-in FLP of the examples satisfies it.
     `Histogram.v` models the FLP itself; C74 proves it complete, and C75 is C22 without this hypothesis;
   - `no_collision`, `hashes_fine`: the hashes that this very run compares are not equal for different
     inputs.  Global injectivity of a hash is never assumed (it would be contradictory); by C24_hashes these
     hypotheses fail only where the truncated hash collides at one place of the trees of the two aggregators;
   - `p3_run`, `good_pm_choice`: how Prio3 treats the reports of the run (C36, C53); `Prio3.v` models Prio3 itself, and
     C79 is C53 without this hypothesis;
   - `fixed_verifier_len`: the verifier shares of the FLP have one length (C52).
   - binary64 arithmetic (C56, C58) is `Coq.Floats.SpecFloat` of the standard library, which is axiom-free;
   - C44 quantifies over every f32 `log2` that is correctly rounded (ties either way).

## 2. Files (`rocq/theories`)

| kind | files |
|------|-------|
| model | `Base` (outcome monad), `Field` (Field128), `Util` (lib.rs), `Env`, `Prg` (prg.rs), `Vidpf` (vidpf.rs), `Merkle` (rs_merkle), `Collect` (collect.rs), `Server` (bin/server.rs, rpc.rs), `Driver` and `Modes` (bin/driver.rs), `Sched` (the parallel parts step by step), `Conc` (an aggregator with several requests in flight), `System` (driver and aggregators running at the same time), `Threshold` (the f64 computations of driver.rs and lib.rs), `Histogram` (prio's FLP for histograms) |
| specification | `Spec*.v`: small independent definitions: key streams, point functions, sharing, prefixes, counts, histograms, reachable states, the outcome of a level and of a run |
| proofs | `*Facts*.v`, `*Main.v`, `*Run.v`, `CollectInv.v`, `*Prop.v` |
| concrete environments | `RefEnv` + `RefCrypto` (real AES-128 and BLAKE3, checked against test vectors), `ToyEnv` (cheap mixing functions, for whole runs) |
| concrete cases | `*Examples.v`, `ExRun.v` |
| properties | `Prop*.v`: the theorems only, each closed by `exact`, with `Print Assumptions` and an `Example` |

Conventions: `usize` is `nat`, `u8` is `N`, `i8`/`u64`/`u128` are `Z` with explicit reduction where the code
wraps or truncates; `&mut self` methods return the new value; `Option`/`Result` stay data; a panic is
`Panic kind`; `debug_assert!` and the overflow check of integer arithmetic run only if `dbg E = true`, side
effects of the argument included; all
randomness is an argument; iterations with no structural bound take fuel, running out of fuel is `Panic
PFuel`, and the theorems exclude it.

A property that the code violates has a theorem ending in `_refuted` (general wherever possible: every
input of a class, not just one witness) together with the strongest statement that does hold; its claim in
`MANIFEST.json` says so in the note.

## 3. What is modelled, what is not

| source | modelled | not modelled |
|--------|----------|--------------|
| `lib.rs` | all free functions; `Mastic` as far as used (encode, lengths, prove, query, decide through `Env`) | `MasticSum` (unused), the chunk length handed to the FLP and to Prio3 (external; its f64 computation is modelled, C58), `string_to_bits` of non-byte input |
| `prg.rs` | `FixedKeyPrgStream` with buffer, position, block counter, both refills and both counter back-ends; `PrgSeed::{expand_dir, expand, convert, zero, bitxor}`; the thread-local stream shared by all calls; `to_rng` and `PrgStream` (`PrgStream.v`), with the crates' counter mode as a bytewise stream | `random` (randomness is an argument), SIMD types, the panic of the crate `ctr` after 2^128 blocks |
| `vidpf.rs` | everything outside the test module, with the node cache of `eval_tree` | `Serialize` instances |
| `collect.rs` | everything | the implementation of rayon: a parallel iterator is a set of closures whose steps interleave in any order and over any threads (`Sched.v`), which C72 shows to be the sequential map of `Collect.v` |
| `bin/server.rs` | every handler, the `Mutex` with poisoning, ids and optional `data_bits`; several requests at once (`Conc.v`), which C73 reduces to one at a time; both aggregators and the driver at once (`System.v`), which C77 reduces to the sequential program | tarpc transport, timeouts, logging, sockets |
| `bin/driver.rs` | report generation, sharing, tampering, uploads in batches, the FLP phase, levels with the search for inconsistent reports, last level, printing condition, attribute-based and plain metrics, `main` for all three modes | zipf sampling and the drawing of random numbers (arguments), time measurements, printing itself, retries after a network error; the conversion of the threshold to an integer is modelled separately (`Threshold.v`, C56) |
| `config.rs` | the values of the configuration | command line and TOML parsing |
| `tests/*.rs`, test modules | every test, with its constants and randomness as arguments (`RepoTests.v`) | printing |
| crates | rs_merkle's tree shape (`Merkle.v`); Prio3 accumulation and unsharding; prio's FLP for `Histogram` with any chunk length (`Histogram.v`: prove, query, decide over coefficient lists, written after the public VDAF draft because the crate's source is not in `/repo`); Prio3 sharding, encodings and preparation for the histogram type with two aggregators (`Prio3.v`, after the same draft: the derivation of the shares, the joint randomness and its check in prepare_next) | AES, BLAKE3 and the XOF (arbitrary functions in `Env`); of the FLP, the fast Fourier transform (its defining sum is used) and its size limit; of Prio3, the exact domain separation strings (only that each use has its own) and re-expanding the helper's seed in prepare_next.  All theorems before C74 leave the FLP arbitrary, all but C79 and C80 leave Prio3's preparation arbitrary |

`try_join!` of two requests is modelled as both aggregators handling their request; the driver fails unless
both answer.  The aggregators do not talk to each other, so the order does not matter.  A poisoned collector
keeps its last value in the model; it is never read again.

## 4. Properties

| ids | file | main idea |
|-----|------|-----------|
| C06–C08, C11, C14 | PropPrg | invariant: rest of the buffer plus blocks to come is the key stream from the current position |
| C64 | PropPrgStream | invariant on the unused rest of the current block |
| C65 | PropTests | the tests are programs over the model; the collect tests by the frontier invariant of C22, with no driver or server |
| C12, C13, C49, C50 | PropUtil | induction |
| C01–C05, C09, C10 | PropVidpf | two-party invariant along the path; cache invariant for `eval_tree`; transcript splitting for soundness, and its converse (C05_transcript_iff) |
| C15–C17, C19–C21, C38–C41, C48 | PropCollect | invariants over arbitrary request sequences |
| C23, C31, C32, C35, C37, C45 | PropDriver | induction over the loops, termination |
| C33, C34, C36 | PropMetrics | state machine |
| C42, C46, C47 | PropCheck | exact characterisation of what the checks see |
| C44 | PropMerkle | real analysis of the rounded logarithm; induction on the tree for the binding of the root |
| C18, C22, C27, C43 | PropWhh | relation between both aggregators through all levels |
| C24–C26 | PropSearch | exact effect of the Merkle search on the set of reports |
| C30 | PropLast | exact set of compared proofs |
| C28, C29 | PropForge | construction of keys with chosen counters and weights, carried through complete runs |
| C51 | PropRun | exact outcome of a complete run with arbitrary reports |
| C52, C53 | PropModes | exact tables of complete runs of the other two modes |
| C54, C55 | PropHash | exact preimages of the proof hash; masking of the root seed |
| C56, C58 | PropThreshold | binary64 rounding never crosses a multiple of 1/2 below 2^51 |
| C59 | PropTwo | interleaved requests of two drivers |
| C60 | PropHide | counting of draws, hybrid over the entries of the proof |
| C61 | PropOne | induction along the paths: proofs agree upwards, differing states form one chain; forged keys for a pattern |
| C63 | PropFlood | counting disjoint prefixes; zero-hash keys with free counters, carried through complete runs |
| C66 | PropSpy | the frontier invariant of C22, restarted with all marks but one removed |
| C67, C68 | PropOrder | the outcome of C22 is a function of the multiset of reports |
| C69 | PropAgree | counting: every string has one prefix among the paths, every client one bucket |
| C70 | PropShift | level by level the keep list of the shifted counters equals the keep list at the lower threshold, so the two runs are the same program |
| C71 | PropBatch | every round of every loop makes progress when the batch sizes are positive; with size 0 the loop state repeats |
| C72 | PropSched | each generator call gives the same result on any stream (C06), so a step changes neither what a task will return nor how much is left to do, except by one |
| C73 | PropConc | the holder of the guard works on the collector of the sequential run; order of answering; lexicographic measure for termination |
| C74–C76 | PropHist | P is prime (Proth); interpolation at roots of unity; a polynomial has no more roots than its degree, counted over the joint and the query randomness; the checks as a polynomial in the joint randomness |
| C77 | PropSystem | while the driver computes the aggregators are idle, and while it waits each of them is a machine of C73 with one request; well-founded induction over what is left of the program, the tasks and the two machines |
| C78 | PropSplit | the two verifiers weigh the gadget outputs with different values, so a constant moved from one proof share to the other changes the sum of the outputs but not the gadget polynomial |
| C79 | PropPrio3 | encodings round-trip, so the preparation reduces to the queries of C74; the wires of a spoilt upload for two joint random values give one polynomial of known degree; prepare_next compares seeds |
| C80 | PropVerdict | per batch, each aggregator's accumulated share is the sum of its own accepted outputs; prepare_next of both aggregators shares the same decision, so a one-sided verdict means differing seeds |
| C81 | PropCensor | the run after the FLP phase depends on the verdicts only; adding 1 to the first entry of a verifier share turns an accepted report into a refused one |
| C82 | PropView | the requests sent by the driver of System.v, written down from verdicts and heavy prefixes; induction over batches and levels |
| C83 | PropTamper | the driver with one aggregator's answers passed through a function; adding to an aggregate share commutes with the rest of the program |
| C84 | PropFinal | as C83 for the final shares; strings kept at the last level have a positive total |
| C85 | PropDrop | as C52_main; the lying aggregator changes evaluation proofs only (debug), or any answer to the validation (release) |
| C86 | PropSuppress | as C53_main; the lying aggregator changes preparation shares so that they still decode but the other one rejects the report |
| C87 | PropVeto | as C22_main with at least two bits; the lying aggregator's verifier shares lead to a decision about every upload; C87_one_bit: one-bit strings, nothing else |
| C88 | PropViews | C88_attributes: as C52_main; C88_plain: the run ends normally, aggregators with ids 0 and 1, nothing about the uploads |
| C89 | PropSingle | as C52_main and C53_main, less than 2^64 uploads; the batches theorems compare two such runs |
| C57, C62 | PropAbm | forged last correction words in attribute-based metrics |

## 5. What the proofs say about the code

Violations of the intended properties, each proved for a whole class of inputs:
- C09: control-bit corrections are predictable and the path can be read off the correction words.
- C11: the two counter back-ends differ.
- C25, C26: after a rejection the search for inconsistent reports uses positions in the shrunken list, so it
  removes honest reports, keeps bad ones, or panics.
- C27: a level without any heavy prefix panics unless it is one of the last two.
- C28, C29, C42: counters and weights below the first level are not tied to the checked weight; one report can
  set any leaf to any value.
- C30: after one rejection some proofs of the last level are never compared.
- C31: a heavy hitter whose last bucket is empty is not printed.
- C32: the driver's VIDPF tampering edits a temporary copy.
- C33, C34, C52: release builds of attribute-based metrics keep rejected reports; tables accumulate over
  batches; a report failing both checks panics a debug build.
- C35: the sampled attributes skip client 0 and can index past the end.
- C44: from 2^21 + 1 reports on the f32 logarithm gives a wrong number of Merkle levels; an inconsistent last report is
  then counted.
- C46: with one-bit strings the FLP check is never run.
- C47: malformed reports poison the lock.
- C55: two of the 128 bits of every root seed are ignored.
- C56: the threshold is truncated, so strings below the configured fraction are reported; 0.29 of 100 clients
  is 28.
- C57: in attribute-based metrics a client can shift its own weights without failing a check, unless the
  string differing from its own in the last bit is queried too.
- C62: with a different public part for each aggregator it can count with any weights at its own string, the
  sibling taking the difference, as long as no full-length attribute has another parent.
- C59: two drivers at the same time mix up each other's reports or disable the aggregators.
- C60: the masks of the proof are not quite uniform (u128 reduced modulo p), so hiding is statistical, not perfect.
- C61: zero hashes in the public part are accepted; a client can then spread its weight over many strings.
- C63: zero hashes and unchecked counters together let one client keep a whole half of the tree alive, so the
  aggregators' work and the result grow to 2^(bits-1) entries.
- C66: the aggregators take the FLP verdicts from the driver, so the driver alone can single out any client and
  read its string and weights; even an honest driver sees totals below the threshold, at children of heavy prefixes.
- C67: with an inconsistent and a rejected report the outcome depends on the order of the uploads.
- C68: a report uploaded m times counts m times; there is no check for repeated nonces.
- C70: counter shares are added up as sent; one aggregator can run the protocol with any lower threshold, unnoticed.
- C71: batch sizes are not checked; size 0 makes the upload (always) and the heavy-hitter queries (release build) loop for ever, panics the other modes, and disables the aggregators in a debug build.
- C76: the joint randomness of the FLP is derived from the root seeds and the nonce, not from the weights; a client
  learns it first and then picks weights that pass, for example -j1/j0^(i+1) in bucket i.
- C78: an aggregator takes the other's part of the joint randomness from the report and nothing compares the results;
  a client that advertises a wrong part gets any weights accepted, whatever the verify key.
- C80: in plain metrics only the numbers of rejected reports are compared, so two reports, each rejected by a different
  aggregator, are both half counted.  With Prio3 this needs reports that pass with differing joint randomness; the witness
  uses an XOF whose joint randomness ignores the seed.
- C81: an aggregator can drop any clients by spoiling its verifier shares of their reports; nobody notices.
- C83: an aggregator can add any numbers to the tables and histograms; nothing ties its aggregate share to the reports.
- C84: an aggregator can change the counts printed for the heavy hitters; the final shares are compared with nothing but the other's strings.
- C85: in debug builds an aggregator can have any valid reports left out of the tables of attribute-based metrics by sending wrong evaluation proofs for them.
- C86: an aggregator can have any valid reports left out of the histograms of plain metrics by spoiling its preparation shares and adjusting its own sum and count.
- C87: in weighted heavy hitters an aggregator decides which uploads are counted by altering its verifier shares: it can veto valid ones and let in ones with wrong proofs.
- C89: the tables of the metrics modes are printed per batch; a client alone in its batch (batch size one, or one upload left over) has its vote printed.
- C64: `PrgStream::fill_bytes` (unused) xors into its buffer, and panics in debug builds unless the buffer is zero.

## 6. Testing the theorems

`seeded/LOG.jsonl` lists deliberate errors introduced into the model (one per line) in a scratch copy,
the theorems whose proof then no longer checked (directly or through a lemma they use), and the theorems
that were tightened when nothing failed.  A proof that no longer checks is not by itself a proof that the
statement became false; failing `_example`s are.
