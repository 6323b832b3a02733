(** Property C51: complete runs of weighted heavy hitters with arbitrary reports. *)
From Verif Require Import Base Field Util Env Prg Vidpf Merkle Collect Server Driver SpecVidpf SpecTree SpecCollect SpecServer SpecLevel SpecWhh SpecSearch SpecLast SpecRun SpecRoot
  RunFacts CollisionFacts RefEnv ToyEnv ExRun WhhExamples SearchExamples RunExamples.

(** Whatever reports R with evaluable keys the two aggregators hold, the result of the run - the list it
    reports, or the panic it ends with - is the one of [run_effect], which speaks only about the reports,
    their FLP verdicts and their values and proofs at the prefixes.  Collision freedom is needed only at
    the levels of this run at which two verification strings differ. *)
Theorem C51_exact : forall fuel E cfg len bits vk R s0 s1,
  env_ok E -> well_formed_pairs bits R -> flp_flags E len bits vk R -> fine_levels E len (threshold cfg) (bits - 1) 0 [[]] R ->
  uploaded true len bits vk (map (share_of true) R) s0 -> uploaded false len bits vk (map (share_of false) R) s1 ->
  cfg_hist cfg = len -> cfg_bits cfg = Some bits -> 1 <= bits -> 0 < cfg_query_batch cfg -> length R + 2 <= fuel ->
  exists t0 t1, run_whh fuel E cfg s0 s1 (length R) =
    let! rs := run_effect E len (threshold cfg) (cfg_query_batch cfg) bits R in Ret (t0, t1, rs).
Proof. exact run_exact. Qed.
Print Assumptions C51_exact.

(** No assumption on the hash is needed for this: the run is the one of [run_effect], or the truncated hash collides at one place
    of the trees that the two aggregators build at some level. *)
Theorem C51_collision : forall fuel E cfg len bits vk R s0 s1,
  env_ok E -> well_formed_pairs bits R -> flp_flags E len bits vk R -> (forall n, n <= length R -> clog2f E n = Nat.log2_up n) ->
  uploaded true len bits vk (map (share_of true) R) s0 -> uploaded false len bits vk (map (share_of false) R) s1 ->
  cfg_hist cfg = len -> cfg_bits cfg = Some bits -> 1 <= bits -> 0 < cfg_query_batch cfg -> length R + 2 <= fuel ->
  (exists t0 t1, run_whh fuel E cfg s0 s1 (length R) =
    let! rs := run_effect E len (threshold cfg) (cfg_query_batch cfg) bits R in Ret (t0, t1, rs)) \/
  run_collision E len (threshold cfg) bits R.
Proof. exact (fun fuel E cfg len bits vk R s0 s1 Hok => run_exact_or E Hok fuel cfg len bits vk R s0 s1). Qed.
Print Assumptions C51_collision.

(** four reports, one of them inconsistent at the second level and one with a spoilt proof *)
Example C51_example : r_setting r_mixed 1 /\ r_result r_mixed 1 = Some [([false; false; true], [0; 1; 1]); ([true; false; true], [1; 0; 1])]%Z.
Proof. exact r_mixed_ok. Qed.

Example C51_collision_example : env_ok tx /\ (forall n, clog2f tx n = Nat.log2_up n).
Proof. exact (conj (toy_env_ok true true) (fun n => eq_refl)). Qed.

(** A run ends with a panic if the FLP check rejects all reports, or if it rejects so many that the depth
    of the Merkle tree shrinks and one of the others is inconsistent at the first level. *)
Theorem C51_crash : forall fuel E cfg len bits vk R s0 s1,
  env_ok E -> well_formed_pairs bits R -> flp_flags E len bits vk R -> hashes_fine E len 0 [[]] R ->
  uploaded true len bits vk (map (share_of true) R) s0 -> uploaded false len bits vk (map (share_of false) R) s1 ->
  cfg_hist cfg = len -> cfg_bits cfg = Some bits -> 2 <= bits -> 0 < cfg_query_batch cfg -> length R + 2 <= fuel ->
  remaining R = [] \/ bad_ranks E len 0 [[]] R <> [] /\ Nat.log2_up (length (remaining R)) < Nat.log2_up (length R) ->
  is_ret (run_whh fuel E cfg s0 s1 (length R)) = false.
Proof. exact run_crash. Qed.
Print Assumptions C51_crash.

(** three reports; one is rejected and one is inconsistent at the first level *)
Example C51_crash_example : r_setting r_crash 1 /\ hashes_fine tx 2 0 [[]] (r_pairs r_crash) /\ bad_ranks tx 2 0 [[]] (r_pairs r_crash) = [1] /\
  length (remaining (r_pairs r_crash)) = 2 /\ r_result r_crash 1 = None.
Proof. exact r_crash_ok. Qed.
