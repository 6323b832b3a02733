(** Concrete case for C81: honest clients with the strings 101, 101 and 001, threshold 1, proof system of Histogram.v. *)
From Verif Require Import Base BaseFacts Field Util Env Prg Vidpf Merkle Collect Server Driver SpecVidpf SpecTree SpecLevel SpecWhh SpecHist Histogram HistRun SpecCensor CensorFacts
  RefEnv ToyEnv ExRun WhhExamples MetricsExamples ModesExamples HistExamples.

(** the report of the third client is dropped *)
Definition third (i : nat) : bool := i =? 2.
Definition ce_run (D : nat -> bool) (who : bool) : outcome (server * server * list result) :=
  run_lying who (censor D) 20 (with_hist tx) (w_cfg 1) (g_server 0 (map e_r0 h_entries)) (g_server 1 (map e_r1 h_entries)) (length h_entries).
Lemma h_all_ok : forallb e_ok h_entries = true.
Proof. vm_cast_no_check (eq_refl true). Qed.
Lemma ce_hypotheses : (forall i e, nth_error h_entries i = Some e -> third i = true -> e_ok e = true) /\ existsb e_ok (spared third h_entries) = true /\
  forall l, 1 <= l -> l + 1 < 3 -> exists p, length p = l /\ heavy (threshold (w_cfg 1)) (spared third h_entries) p = true.
Proof.
  split; [|split].
  - intros i e Hi _. pose proof h_all_ok as Ha. rewrite forallb_forall in Ha. apply Ha. apply (nth_error_In _ i). exact Hi.
  - vm_cast_no_check (eq_refl true).
  - intros l H1 H2. assert (l = 1) by lia. subst l. exists [true]. split; [reflexivity|]. vm_cast_no_check (eq_refl true).
Qed.
Lemma ce_results who : result_is (ce_run third who) [([true; false; true], [1; 1; 2])]%Z = true.
Proof.
  destruct ce_hypotheses as (A & B & C).
  destruct (censored tx tx_ok who third 2 3 h_entries ex_vk 20 (w_cfg 1) (g_server 0 (map e_r0 h_entries)) (g_server 1 (map e_r1 h_entries))) as ((t0 & t1 & Ht) & _);
    [apply h_entries_ok|reflexivity|reflexivity|reflexivity|cbn; lia|lia|cbn; lia|apply (g_uploaded true)|apply (g_uploaded false)|apply h_entries_ok|exact A|exact B|exact C|].
  unfold ce_run. rewrite Ht. cbn [result_is]. vm_cast_no_check (eq_refl true).
Qed.
(** nobody dropped *)
Lemma ce_none : result_is (ce_run (fun _ => false) true) [([false; false; true], [0; 1; 1]); ([true; false; true], [1; 1; 2])]%Z = true.
Proof.
  destruct (censored tx tx_ok true (fun _ => false) 2 3 h_entries ex_vk 20 (w_cfg 1) (g_server 0 (map e_r0 h_entries)) (g_server 1 (map e_r1 h_entries))) as ((t0 & t1 & Ht) & _);
    [apply h_entries_ok|reflexivity|reflexivity|reflexivity|cbn; lia|lia|cbn; lia|apply (g_uploaded true)|apply (g_uploaded false)|apply h_entries_ok|discriminate|vm_cast_no_check (eq_refl true)| |].
  - intros l H1 H2. assert (l = 1) by lia. subst l. exists [true]. split; [reflexivity|]. vm_cast_no_check (eq_refl true).
  - unfold ce_run. rewrite Ht. cbn [result_is]. vm_cast_no_check (eq_refl true).
Qed.
Succeed Definition by_computation := (eq_refl true <: result_is (ce_run third false) [([true; false; true], [1; 1; 2])]%Z = true).
