(** Properties C24, C25 and C26: the search for inconsistent reports within one level. *)
From Verif Require Import Base Field Util Env Prg Vidpf Merkle Collect Server Driver SpecVidpf SpecTree SpecCollect SpecServer SpecLevel SpecWhh SpecSearch SearchProp SpecRoot CollisionFacts
  RefEnv ToyEnv ExRun DriverPropFacts RefuteExamples WhhExamples SearchExamples.

(** the hypothesis [at_frontier] of [level_start] holds for every reachable aggregator whose tree covers
    all its reports *)
Theorem C24_reachable : forall E id bits0 hist qs s bits,
  s = fst (handle_all E (server_start id bits0 hist) qs) -> s_poison s = false -> c_depth (s_coll s) = Some bits ->
  (forall node, In node (c_frontier (s_coll s)) -> length (tn_values node) = length (c_reports (s_coll s))) ->
  at_frontier E (id =? 0)%Z (c_len (s_coll s)) bits (map tn_path (c_frontier (s_coll s))) (c_reports (s_coll s)) s.
Proof. exact reach_at_frontier. Qed.
Print Assumptions C24_reachable.

(** C24: no report rejected so far and at least one consistent report.  Afterwards both aggregators have
    exactly the consistent reports flagged, the frontier consists of the children whose count over the
    consistent reports reaches the threshold, and every node holds the sum over the consistent reports. *)
Theorem C24_exact : forall E len bits level paths R s0 s1 fuel cfg,
  env_ok E -> level_start E len bits level paths R s0 s1 -> hashes_fine E len level paths R -> cfg_hist cfg = len ->
  Nat.log2_up (length R) + 2 <= fuel ->
  all_accepted R -> existsb (consistent E len level paths) R = true ->
  exists t0 t1, run_level fuel E cfg s0 s1 (length R) = Ret (t0, t1) /\
    after_level E len bits (threshold cfg) (map (fun x => (consistent E len level paths x, snd x)) R) paths t0 t1.
Proof. exact p_exact. Qed.
Print Assumptions C24_exact.

(** the hypothesis on the roots fails only where the truncated hash collides within the two trees ... *)
Theorem C24_hashes : forall E len level paths R, env_ok E -> clog2f E (length (remaining R)) = Nat.log2_up (length (remaining R)) ->
  hashes_fine E len level paths R \/ block_collision E len level paths R.
Proof. exact (fun E len level paths R Hok => hashes_fine_or E Hok len level paths R). Qed.
Print Assumptions C24_hashes.

(** ... so that the level is exact or there is a collision to be shown *)
Theorem C24_collision : forall E len bits level paths R s0 s1 fuel cfg,
  env_ok E -> level_start E len bits level paths R s0 s1 -> clog2f E (length R) = Nat.log2_up (length R) -> cfg_hist cfg = len ->
  Nat.log2_up (length R) + 2 <= fuel ->
  all_accepted R -> existsb (consistent E len level paths) R = true ->
  (exists t0 t1, run_level fuel E cfg s0 s1 (length R) = Ret (t0, t1) /\
    after_level E len bits (threshold cfg) (map (fun x => (consistent E len level paths x, snd x)) R) paths t0 t1) \/
  block_collision E len level paths R.
Proof. exact (fun E len bits level paths R s0 s1 fuel cfg Hok => exact_or E Hok len bits level paths R s0 s1 fuel cfg). Qed.
Print Assumptions C24_collision.

(** The root comes first: where the two roots are the same - by a collision, or because the tree leaves a report out (C44) -
    the level rejects nobody, and what it counts includes the inconsistent reports. *)
Theorem C24_unnoticed : forall E len bits level paths R s0 s1 fuel cfg,
  env_ok E -> level_start E len bits level paths R s0 s1 -> cfg_hist cfg = len -> 1 <= fuel -> remaining R <> [] -> same_roots E len level paths R ->
  exists t0 t1, run_level fuel E cfg s0 s1 (length R) = Ret (t0, t1) /\ after_level E len bits (threshold cfg) R paths t0 t1.
Proof. exact unnoticed. Qed.
Print Assumptions C24_unnoticed.

(** five reports, the last inconsistent, and a logarithm that is one too small: the tree has four leaves *)
Example C24_unnoticed_example : env_ok sx /\ level_start sx 2 3 1 k_paths s_pairs (s_server 0) (s_server 1) /\
  map fst s_pairs = [true; true; true; true; true] /\ map (consistent sx 2 1 k_paths) s_pairs = [true; true; true; true; false] /\
  remaining s_pairs <> [] /\ same_roots sx 2 1 k_paths s_pairs.
Proof. exact s_last_ok. Qed.

(** five reports, the second and the last with different keys at the two aggregators *)
Example C24_example : k_setting k_all /\ all_accepted (k_pairs k_all) /\ k_consistent k_all = [true; false; true; true; false] /\
  k_after k_all = Some ([true; false; true; true; false], [true; false; true; true; false], [[false; false]; [true; false]]).
Proof. exact k_all_ok. Qed.

(** C25.  The positions of the inconsistent reports among the remaining ones are used as positions in the
    list of all reports: report i is rejected if exactly i accepted reports precede an inconsistent one. *)
Theorem C25_refuted : forall E len bits level paths R s0 s1 fuel cfg i x j y t0 t1,
  env_ok E -> level_start E len bits level paths R s0 s1 -> hashes_fine E len level paths R -> cfg_hist cfg = len ->
  Nat.log2_up (length R) + 2 <= fuel ->
  nth_error R i = Some x -> nth_error R j = Some y -> fst y = true -> consistent E len level paths y = false ->
  length (remaining (firstn j R)) = i -> run_level fuel E cfg s0 s1 (length R) = Ret (t0, t1) ->
  nth_error (map fst (c_reports (s_coll t0))) i = Some false /\ nth_error (map fst (c_reports (s_coll t1))) i = Some false.
Proof. exact (fun E len bits level paths R s0 s1 fuel cfg i x j y t0 t1 A B C D F => p_removed E len bits level paths R s0 s1 fuel cfg A B C D F i x j y t0 t1). Qed.
Print Assumptions C25_refuted.

(** the last inconsistent report survives whenever a report before it was rejected earlier *)
Theorem C25_survives : forall E len bits level paths R s0 s1 fuel cfg a x b y t0 t1,
  env_ok E -> level_start E len bits level paths R s0 s1 -> hashes_fine E len level paths R -> cfg_hist cfg = len ->
  Nat.log2_up (length R) + 2 <= fuel ->
  nth_error R a = Some x -> fst x = true -> consistent E len level paths x = false ->
  (forall j z, a < j -> nth_error R j = Some z -> fst z = true -> consistent E len level paths z = true) ->
  b < a -> nth_error R b = Some y -> fst y = false -> run_level fuel E cfg s0 s1 (length R) = Ret (t0, t1) ->
  nth_error (map fst (c_reports (s_coll t0))) a = Some true /\ nth_error (map fst (c_reports (s_coll t1))) a = Some true.
Proof. exact (fun E len bits level paths R s0 s1 fuel cfg a x b y t0 t1 A B C D F => p_stays E len bits level paths R s0 s1 fuel cfg A B C D F a x b y t0 t1). Qed.
Print Assumptions C25_survives.

(** the exact effect of a level in which some report is inconsistent, when it completes *)
Theorem C25_effect : forall E len bits level paths R s0 s1 fuel cfg,
  env_ok E -> level_start E len bits level paths R s0 s1 -> hashes_fine E len level paths R -> cfg_hist cfg = len ->
  Nat.log2_up (length R) + 2 <= fuel ->
  bad_ranks E len level paths R <> [] -> Nat.log2_up (length R) = Nat.log2_up (length (remaining R)) ->
  remaining (clear_at (bad_ranks E len level paths R) R) <> [] ->
  exists t0 t1, run_level fuel E cfg s0 s1 (length R) = Ret (t0, t1) /\
    after_level E len bits (threshold cfg) (clear_at (bad_ranks E len level paths R) R) paths t0 t1.
Proof. exact p_effect. Qed.
Print Assumptions C25_effect.

(** what holds: without earlier rejections no consistent report is removed *)
Theorem C25_holds : forall E len bits level paths R s0 s1 fuel cfg i x t0 t1,
  env_ok E -> level_start E len bits level paths R s0 s1 -> hashes_fine E len level paths R -> cfg_hist cfg = len ->
  Nat.log2_up (length R) + 2 <= fuel ->
  all_accepted R -> nth_error R i = Some x -> consistent E len level paths x = true -> run_level fuel E cfg s0 s1 (length R) = Ret (t0, t1) ->
  nth_error (map fst (c_reports (s_coll t0))) i = Some true /\ nth_error (map fst (c_reports (s_coll t1))) i = Some true.
Proof. exact (fun E len bits level paths R s0 s1 fuel cfg i x t0 t1 A B C D F => p_kept E len bits level paths R s0 s1 fuel cfg A B C D F i x t0 t1). Qed.
Print Assumptions C25_holds.

(** four reports: the first rejected by the FLP check, the third inconsistent.  The level rejects the
    second, which is consistent, and keeps the third. *)
Example C25_example : k_setting k_shift /\ map fst (k_pairs k_shift) = [false; true; true; true] /\ k_consistent k_shift = [true; true; false; true] /\
  k_after k_shift = Some ([false; false; true; true], [false; false; true; true], [[false; false]; [false; true]; [true; false]]).
Proof. exact k_shift_ok. Qed.

(** C26: one inconsistent report crashes the level as soon as the remaining reports fit in a smaller
    Merkle tree than all reports *)
Theorem C26_refuted : forall E len bits level paths R s0 s1 fuel cfg x,
  env_ok E -> level_start E len bits level paths R s0 s1 -> hashes_fine E len level paths R -> cfg_hist cfg = len ->
  Nat.log2_up (length R) + 2 <= fuel ->
  In x R -> fst x = true -> consistent E len level paths x = false -> Nat.log2_up (length (remaining R)) < Nat.log2_up (length R) ->
  run_level fuel E cfg s0 s1 (length R) = Panic PArith.
Proof. exact (fun E len bits level paths R s0 s1 fuel cfg x A B C D F => p_shrunk E len bits level paths R s0 s1 fuel cfg A B C D F x). Qed.
Print Assumptions C26_refuted.

(** and so do reports that are all inconsistent *)
Theorem C26_refuted_all : forall E len bits level paths R s0 s1 fuel cfg,
  env_ok E -> level_start E len bits level paths R s0 s1 -> hashes_fine E len level paths R -> cfg_hist cfg = len ->
  Nat.log2_up (length R) + 2 <= fuel ->
  all_accepted R -> R <> [] -> existsb (consistent E len level paths) R = false -> run_level fuel E cfg s0 s1 (length R) = Panic PIndex.
Proof. exact p_all_bad. Qed.
Print Assumptions C26_refuted_all.

(** what holds: with some accepted report and no inconsistent one the level completes; with inconsistent
    ones it completes in the cases of C24_exact and C25_effect *)
Theorem C26_completes : forall E len bits level paths R s0 s1 fuel cfg,
  env_ok E -> level_start E len bits level paths R s0 s1 -> hashes_fine E len level paths R -> cfg_hist cfg = len ->
  Nat.log2_up (length R) + 2 <= fuel ->
  1 <= length (remaining R) -> (forall x, In x R -> fst x = true -> consistent E len level paths x = true) ->
  exists t0 t1, run_level fuel E cfg s0 s1 (length R) = Ret (t0, t1) /\ after_level E len bits (threshold cfg) R paths t0 t1.
Proof. exact p_none. Qed.
Print Assumptions C26_completes.

(** three reports, the first rejected by the FLP check, the last inconsistent; and two inconsistent ones *)
Example C26_example :
  (k_setting k_shrunk /\ map fst (k_pairs k_shrunk) = [false; true; true] /\ k_consistent k_shrunk = [true; true; false] /\ k_after k_shrunk = None) /\
  (k_setting k_none /\ map fst (k_pairs k_none) = [true; true] /\ k_consistent k_none = [false; false] /\ k_after k_none = None).
Proof. exact k_crash_ok. Qed.
