(** Property C65: the repository's own tests (tests/*.rs, src/lib.rs:251-292, src/vidpf.rs:476-537), for
    every choice of their randomness. *)
From Verif Require Import Base Field Util Env Prg Vidpf SpecVidpf SpecTree Merkle Collect Server Driver SpecCollect SpecWhh RefCrypto RefEnv ToyEnv VidpfPropFacts ExRun WhhExamples
  RepoTests SpecTests RepoTestFacts RepoTestExamples.

(** dpf_complete passes for all seeds, every length up to 32 bits, every point and every weight. *)
Theorem C65_dpf : forall E seed0 seed1 n a beta,
  env_ok E -> length seed0 = 16 -> length seed1 = 16 -> 1 <= n <= 32 -> length beta = 1 ->
  test_dpf E seed0 seed1 n a beta = Ret tt.
Proof. exact test_dpf_lemma. Qed.
Print Assumptions C65_dpf.

(** mode_attribute_based_metrics passes for all seeds, every string, all weights and every list of
    attributes of the same length, when the expected values are the weights followed by 1 at the client's
    string and zeros elsewhere. *)
Theorem C65_tree : forall E seed0 seed1 s attributes beta,
  env_ok E -> length seed0 = 16 -> length seed1 = 16 -> s <> [] -> Forall (fun a => length a = length s) attributes ->
  test_tree E seed0 seed1 s attributes beta (map (tree_value s beta) attributes) = Ret tt.
Proof. exact test_tree_lemma. Qed.
Print Assumptions C65_tree.

(** The two collect tests up to the list of results, for any voters: the assertions hold and the results are
    exactly the strings with at least the threshold of voters, in order, each with the sum of the weights and
    the number of its voters. *)
Theorem C65_collect : forall E len chars vs vk thr n,
  env_ok E -> Forall (good_voter len chars) vs -> hist_ok len = true -> (1 <= thr)%Z -> 1 <= chars ->
  vs <> [] -> (Z.of_nat (length vs) < 2 ^ 64)%Z ->
  (forall l, 1 <= l -> l + 1 < 8 * chars -> exists p, length p = l /\ enough thr vs p = true) ->
  test_collect E len thr vk (8 * chars) n vs =
  Ret (map (voters_result vs len) (filter (enough thr vs) (all_paths (8 * chars)))).
Proof. exact (fun E len chars vs vk thr n Hok Hv => test_collect_lemma E Hok len chars vs vk Hv thr n). Qed.
Print Assumptions C65_collect.

(** collect_test_eval_groups with its ten strings passes for all seeds, and it does see both results. *)
Theorem C65_groups : forall E vk seeds,
  env_ok E -> length seeds = 10 -> Forall (fun ss => length (fst ss) = 16 /\ length (snd ss) = 16) seeds ->
  exists rs, test_collect E 4 2 vk 40 10 (group_voters seeds) = Ret rs /\
  map shown rs = [(bits_of s_abdef, [0; 0; 4; 0; 4]%Z); (bits_of s_gZqqq, [0; 0; 3; 0; 3]%Z)] /\
  test_groups E vk seeds = Ret tt.
Proof. exact groups_lemma. Qed.
Print Assumptions C65_groups.

(** collect_test_eval_full_groups passes for all seeds and prints its four strings with 3, 3, 2 and 2
    voters. *)
Theorem C65_full : forall E vk seeds,
  env_ok E -> (forall i, i < 4 -> length (fst (seeds i)) = 16 /\ length (snd (seeds i)) = 16) ->
  exists rs, test_full E vk seeds = Ret rs /\
  map shown rs = [(bits_of s_digits, [0; 3; 0; 0; 3]%Z); (bits_of (122%N :: s_tail), [0; 3; 0; 0; 3]%Z);
                  (bits_of (54%N :: s_tail), [0; 2; 0; 0; 2]%Z); (bits_of (57%N :: s_tail), [0; 2; 0; 0; 2]%Z)].
Proof. exact full_lemma. Qed.
Print Assumptions C65_full.

(** The FLP test passes for every number of buckets, all measurements in range and all randomness for which
    the FLP can prove the statement and is complete; the conversion tests pass. *)
Theorem C65_flp : forall E vk len rs,
  hist_ok len = true -> Forall (fun mr => fst mr < len /\ flp_works E vk len (fst mr) (snd mr)) rs ->
  test_histograms E vk len rs = Ret tt.
Proof. exact histograms_lemma. Qed.
Print Assumptions C65_flp.
Theorem C65_bits : test_bits = Ret tt.
Proof. exact bits_lemma. Qed.
Print Assumptions C65_bits.

(** Concrete cases: each test over the cheap environment; each rejects a wrong expectation. *)
Example C65_example : dpf_example = true /\ tree_example = true /\ collect_example = true /\ groups_example = true /\ flp_example = true.
Proof. exact (conj dpf_example_true (conj tree_example_true (conj collect_example_true (conj groups_example_true flp_example_true)))). Qed.
Example C65_flp_example : Forall (fun mr => fst mr < 10 /\ flp_works tx (ex_seed 9) 10 (fst mr) (snd mr)) ex_flps.
Proof. exact flps_work. Qed.
