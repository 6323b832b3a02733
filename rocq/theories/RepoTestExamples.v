(** Concrete runs for C65: the tests of the repository over the cheap environment, and what they would do
    with wrong expectations. *)
From Verif Require Import Base Field Util Env Prg Vidpf SpecVidpf SpecTree Merkle Collect Server Driver SpecCollect SpecWhh RefCrypto RefEnv ToyEnv VidpfPropFacts ExRun WhhExamples
  RepoTests SpecTests.

Definition ran {A} (o : outcome A) : bool := is_ret o.
(** dpf_complete with its own constants; the check is not vacuous: with the keys of another weight it fails *)
Definition dpf_example : bool :=
  ran (test_dpf rx (ex_seed 1) (ex_seed 2) 5 21%N [of_N 7]) &&
  match u32_to_bits 5 21%N with
  | Ret alpha => match gen rx (ex_seed 1) (ex_seed 2) alpha [of_N 7] with
                 | Ret (k0, k1) => negb (ran (dpf_inner rx k0 k1 alpha alpha [of_N 8] (seq 2 2) ([], []))) &&
                                   ran (dpf_inner rx k0 k1 alpha alpha [of_N 7] (seq 2 2) ([], []))
                 | _ => false
                 end
  | _ => false
  end.
Lemma dpf_example_true : dpf_example = true.
Proof. vm_cast_no_check (eq_refl true). Qed.

(** mode_attribute_based_metrics: "h" among h, s, b, c with weight 1337, as written in the test *)
Definition tree_expected : list (list fld) := [[of_N 1337; of_N 1]; [of_N 0; of_N 0]; [of_N 0; of_N 0]; [of_N 0; of_N 0]].
Definition tree_attrs : list bytes := [[104]; [115]; [98]; [99]]%N.
Definition tree_example : bool :=
  list_eqb (list_eqb fld_eqb) (map (tree_value [104%N] [of_N 1337]) tree_attrs) tree_expected &&
  ran (test_tree rx (ex_seed 1) (ex_seed 2) [104%N] tree_attrs [of_N 1337] tree_expected) &&
  negb (ran (test_tree rx (ex_seed 1) (ex_seed 2) [115%N] tree_attrs [of_N 1337] tree_expected)).
Lemma tree_example_true : tree_example = true.
Proof. vm_cast_no_check (eq_refl true). Qed.

(** three voters with two-byte strings and weights other than one-hot vectors *)
Definition ex_voter (i : nat) (s : bytes) (w : list N) : voter :=
  {| v_seed0 := ex_seed (3 * i + 1); v_seed1 := ex_seed (5 * i + 2); v_str := s; v_beta := map of_N w |}.
Definition ex_voters : list voter :=
  [ex_voter 0 [97; 98]%N [5; 6]%N; ex_voter 1 [97; 98]%N [7; 1]%N; ex_voter 2 [97; 99]%N [1; 1]%N].
Definition voter_ok (len chars : nat) (v : voter) : bool :=
  (length (v_seed0 v) =? 16) && (length (v_seed1 v) =? 16) && (length (v_str v) =? chars) && (length (v_beta v) =? len).
Definition shows (o : outcome (list result)) (l : list (bytes * list Z)) : bool :=
  match o with
  | Ret rs => (length rs =? length l) && forallb (fun ab => path_eqb (fst (fst ab)) (bits_of (fst (snd ab))) && list_eqb Z.eqb (snd (fst ab)) (snd (snd ab))) (combine (map shown rs) l)
  | Panic _ => false
  end.
Definition collect_example : bool :=
  forallb (voter_ok 2 2) ex_voters && hist_ok 2 &&
  forallb (fun l => enough 2 ex_voters (firstn l (bits_of [97; 98]%N))) (seq 1 14) &&
  shows (test_collect rx 2 2 (ex_seed 9) 16 3 ex_voters) [([97; 98]%N, [12; 7; 2]%Z)] &&
  shows (test_collect rx 2 1 (ex_seed 9) 16 3 ex_voters) [([97; 98]%N, [12; 7; 2]%Z); ([97; 99]%N, [1; 1; 1]%Z)].
Lemma collect_example_true : collect_example = true.
Proof. vm_cast_no_check (eq_refl true). Qed.

(** seeds for collect_test_eval_groups; its final check accepts the right results and rejects them if one
    expected number is changed *)
Definition ex_seeds (n : nat) : list (bytes * bytes) := map (fun i => (ex_seed (3 * i), ex_seed (7 * i + 1))) (seq 0 n).
Definition group_results : list result := map (voters_result (group_voters (ex_seeds 10)) 4) [bits_of s_abdef; bits_of s_gZqqq].
Definition groups_example : bool :=
  (length (ex_seeds 10) =? 10) && forallb (fun ss => (length (fst ss) =? 16) && (length (snd ss) =? 16)) (ex_seeds 10) &&
  ran (check_results group_expected group_results) &&
  negb (ran (check_results (fun s => if bytes_eqb s s_abdef then Some [0; 0; 3; 0; 4]%Z else group_expected s) group_results)).
Lemma groups_example_true : groups_example = true.
Proof. vm_cast_no_check (eq_refl true). Qed.

(** histograms with ten buckets and measurements 0 to 4 *)
Definition ex_flp (i : nat) : flp_rand :=
  {| f_nonce := ex_seed i; f_seed0 := ex_seed (i + 20); f_seed1 := ex_seed (i + 40); f_prove_rand := [of_N 3];
     f_input := fun j => of_N (N.of_nat (13 * j + i)); f_proof := fun j => of_N (N.of_nat (17 * j + i)) |}.
Definition ex_flps : list (nat * flp_rand) := map (fun i => (i, ex_flp i)) (seq 0 5).
Definition flp_example : bool :=
  ran (test_histograms rx (ex_seed 9) 10 ex_flps) &&
  negb (ran (test_histograms rx (ex_seed 9) 10 [(10, ex_flp 0)])).
Lemma flp_example_true : flp_example = true.
Proof. vm_cast_no_check (eq_refl true). Qed.
Lemma flps_work : Forall (fun mr => fst mr < 10 /\ flp_works tx (ex_seed 9) 10 (fst mr) (snd mr)) ex_flps.
Proof.
  apply Forall_forall. intros mr Hin. apply in_map_iff in Hin. destruct Hin as (i & <- & Hi). apply in_seq in Hi. cbn [fst snd].
  assert (H : i < 10) by (destruct Hi; apply Nat.lt_le_trans with 5; [assumption|repeat constructor]). split; [exact H|]. split; [|apply toy_complete; exact H].
  discriminate.
Qed.
