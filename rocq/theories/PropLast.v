(** Property C30: the comparison of the proofs at the last level. *)
From Verif Require Import Base Field Util Env Prg Vidpf Merkle Collect Server Driver SpecVidpf SpecTree SpecCollect SpecServer SpecLevel SpecWhh SpecSearch SpecLast LastFacts LastProp
  RefEnv ToyEnv ExRun DriverPropFacts RefuteExamples WhhExamples SearchExamples LastExamples.

(** C30 when no report was rejected: the level completes exactly if the proofs of every report agree, and
    then returns the sums of all reports at the children that reach the threshold *)
Theorem C30_holds : forall E len bits level paths R s0 s1 fuel cfg,
  env_ok E -> level_start E len bits level paths R s0 s1 -> cfg_hist cfg = len -> 0 < cfg_query_batch cfg -> length R <= fuel ->
  all_accepted R ->
  exists t0 t1, run_level_last fuel E cfg s0 s1 (length R) =
    if forallb (proofs_agree E len paths) R then Ret (t0, t1, map (seen_result E len R) (survivors E len (threshold cfg) R paths)) else Panic PAssert.
Proof. exact last_all. Qed.
Print Assumptions C30_holds.

(** three reports; and three reports of which the second has differing proofs *)
Example C30_holds_example :
  (l_start l_good /\ map fst (l_pairs l_good) = [true; true; true] /\ l_agree l_good = [true; true; true] /\
   l_after l_good = Some [([false; false; true], [0; 1; 1]%Z); ([true; false; true], [1; 1; 2]%Z)]) /\
  (l_start l_bad /\ map fst (l_pairs l_bad) = [true; true; true] /\ l_agree l_bad = [true; false; true] /\ l_after l_bad = None).
Proof. exact (conj l_good_ok l_bad_ok). Qed.

(** C30 when some report was rejected, with m remaining reports and batches of b: only the proofs of the
    first m / b * b remaining reports are compared; all m are counted *)
Theorem C30_refuted : forall E len bits level paths R s0 s1 fuel cfg x,
  env_ok E -> level_start E len bits level paths R s0 s1 -> cfg_hist cfg = len -> 0 < cfg_query_batch cfg -> length R <= fuel ->
  In x R -> fst x = false ->
  exists t0 t1, run_level_last fuel E cfg s0 s1 (length R) =
    if forallb (proofs_agree E len paths) (firstn (length (remaining R) / cfg_query_batch cfg * cfg_query_batch cfg) (remaining R))
    then Ret (t0, t1, map (seen_result E len R) (survivors E len (threshold cfg) R paths)) else Panic PAssert.
Proof. exact (fun E len bits level paths R s0 s1 fuel cfg x A B C D F => last_some E len bits level paths R s0 s1 fuel cfg A B C D F x). Qed.
Print Assumptions C30_refuted.

(** in particular nothing at all is compared if fewer than a batch remain *)
Theorem C30_refuted_few : forall E len bits level paths R s0 s1 fuel cfg x,
  env_ok E -> level_start E len bits level paths R s0 s1 -> cfg_hist cfg = len -> 0 < cfg_query_batch cfg -> length R <= fuel ->
  In x R -> fst x = false -> length (remaining R) < cfg_query_batch cfg ->
  exists t0 t1, run_level_last fuel E cfg s0 s1 (length R) = Ret (t0, t1, map (seen_result E len R) (survivors E len (threshold cfg) R paths)).
Proof. exact (fun E len bits level paths R s0 s1 fuel cfg x A B C D F => last_few E len bits level paths R s0 s1 fuel cfg A B C D F x). Qed.
Print Assumptions C30_refuted_few.

(** batches of two: the proofs of the last of three remaining reports differ and it is counted; likewise
    for a single remaining report, in the last level and in the whole run *)
Example C30_refuted_example :
  (l_start l_rej /\ map fst (l_pairs l_rej) = [false; true; true; true] /\ l_agree l_rej = [true; true; true; false] /\
   l_after l_rej = Some [([false; false; true], [0; 1; 1]%Z); ([true; false; true], [2; 0; 2]%Z)]) /\
  (l_start l_few /\ map fst (l_pairs l_few) = [false; true] /\ l_agree l_few = [true; false] /\
   l_after l_few = Some [([false; false; true], [0; 1; 1]%Z)] /\ k_result l_few = Some [([false; false; true], [0; 1; 1]%Z)]).
Proof. exact (conj l_rej_ok l_few_ok). Qed.
