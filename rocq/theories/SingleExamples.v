(** Concrete cases for C89: the runs of C52_example and C53_example. *)
From Verif Require Import Base BaseFacts Field Util Env Prg Vidpf Merkle Collect Server Driver Modes SpecVidpf SpecLevel SpecWhh SpecMetrics SpecModes SpecSingle SingleFacts
  RefEnv ToyEnv ExRun DriverPropFacts RefuteExamples WhhExamples ModesExamples.
From Coq Require Import Permutation Lia.

(** *** attribute-based metrics: the first three uploads, batches of two, so that the third is a batch of its own *)
Definition sg_choices : list choice := firstn 3 w_choices.
Lemma sg_choices_good : Forall (good_choice tx 2 ex_vk w_reports) sg_choices.
Proof. pose proof w_choices_good as H. unfold sg_choices. rewrite <- (firstn_skipn 3 w_choices) in H. apply Forall_app in H. exact (proj1 H). Qed.
Lemma sg_abm : exists t0 t1 tables, main_abm 20 tx (cfg2 2 2 1) w_clients ex_vk sg_choices [1; 2; 1] (@rev (list bool)) (fst w_servers) (snd w_servers) = Ret (t0, t1, tables) /\
  own_batch 2 3 2 /\ growth tables 1 [true; false; true] 0 = 0%Z /\ growth tables 1 [true; false; true] 1 = 0%Z /\ growth tables 1 [false; false; true] 0 = 0%Z /\ growth tables 1 [false; false; true] 1 = 1%Z.
Proof.
  destruct (single_abm tx 2 3 ex_vk w_clients w_reports sg_choices [1; 2; 1] (@rev (list bool)) 20 (cfg2 2 2 1) (fst w_servers) (snd w_servers)) as (t0 & t1 & tables & H & Hg).
  - exact (toy_env_ok true true).
  - lia.
  - exact w_reports_ret.
  - exact w_clients_good.
  - exact sg_choices_good.
  - exact tx_fixed.
  - reflexivity.
  - cbn; lia.
  - cbn; lia.
  - reflexivity.
  - discriminate.
  - cbn; lia.
  - reflexivity.
  - repeat split.
  - exists 1%Z. split; [discriminate|]. repeat split.
  - cbn. intros s Hs. repeat (destruct Hs as [<-|Hs]; [lia|]). destruct Hs.
  - intros l. apply Permutation_sym, Permutation_rev.
  - assert (Ho : own_batch 2 3 2) by (split; [lia|]; split; [reflexivity|right; reflexivity]).
    exists t0, t1, tables. split; [exact H|]. split; [exact Ho|].
    assert (G : forall s c j, In s [1; 2; 1] -> nth_error w_clients s = Some c -> j < 2 -> growth tables 1 (cl_alpha c) j = if list_eq_dec Bool.bool_dec (cl_alpha c) [false; false; true] then (if 1 =? j then 1%Z else 0%Z) else 0%Z).
    { intros s c j Hs Hc Hj. exact (Hg 2 (nth 2 w_choices (nth 0 w_choices (bad_flp 0))) (nth 2 w_clients (ex_client 0 [] 0)) s c (cl_alpha c) j Ho eq_refl eq_refl eq_refl Hs Hc eq_refl Hj). }
    split; [exact (G 1 _ 0 (or_introl eq_refl) eq_refl ltac:(lia))|]. split; [exact (G 1 _ 1 (or_introl eq_refl) eq_refl ltac:(lia))|].
    split; [exact (G 2 _ 0 (or_intror (or_introl eq_refl)) eq_refl ltac:(lia))|exact (G 2 _ 1 (or_intror (or_introl eq_refl)) eq_refl ltac:(lia))].
Qed.

(** *** plain metrics: four uploads in batches of three; the fourth, of client 2 with bucket 1, is a batch of its own *)
Lemma sg_pm : own_batch 3 4 3 /\ exists t0 t1 t, main_pm 20 rx p_shard (cfg2 2 3 1) p_clients ex_vk p_choices (server_start 0 None 2) (server_start 1 None 2) = Ret (t0, t1, [t; ([0; 1], 0)%Z]).
Proof.
  assert (Ho : own_batch 3 4 3) by (split; [lia|]; split; [reflexivity|right; reflexivity]). split; [exact Ho|].
  destruct p_example as (H1 & H2 & H3 & _).
  assert (Hn : (Z.of_nat (length p_choices) < 2 ^ 64)%Z) by reflexivity.
  destruct (PmMain.main_pm_ok rx p_shard 2 ex_vk p_clients p_choices 20 (cfg2 2 3 1) (server_start 0 None 2) (server_start 1 None 2) H1 H2 eq_refl eq_refl ltac:(discriminate) ltac:(cbn; lia) ltac:(cbn; lia) ltac:(cbn; lia) Hn eq_refl eq_refl eq_refl eq_refl) as (t0 & t1 & H).
  exists t0, t1. eexists. rewrite H. replace (cfg_query_batch (cfg2 2 3 1)) with 3 by reflexivity. rewrite H3. reflexivity.
Qed.
(** the first three uploads in another order: the same tables *)
Definition sg_other : list choice := rev (firstn 3 p_choices) ++ skipn 3 p_choices.
Lemma sg_order : p_choices <> sg_other /\ Forall (good_pm_choice rx p_shard 2 ex_vk p_clients) sg_other /\
  Forall2 (@Permutation (option nat)) (pieces 3 (pm_votes p_clients p_choices)) (pieces 3 (pm_votes p_clients sg_other)).
Proof.
  split; [discriminate|]. split.
  - pose proof p_good as H. rewrite <- (firstn_skipn 3 p_choices) in H. apply Forall_app in H. destruct H as [Ha Hb]. apply Forall_app. split; [apply Forall_rev; exact Ha|exact Hb].
  - constructor; [exact (Permutation_rev [Some 1; Some 0; None])|]. constructor; [apply Permutation_refl|constructor].
Qed.
Lemma sg_batches : p_choices <> sg_other /\ exists t0 t1 t0' t1' tables,
  main_pm 20 rx p_shard (cfg2 2 3 1) p_clients ex_vk p_choices (server_start 0 None 2) (server_start 1 None 2) = Ret (t0, t1, tables) /\
  main_pm 20 rx p_shard (cfg2 2 3 1) p_clients ex_vk sg_other (server_start 0 None 2) (server_start 1 None 2) = Ret (t0', t1', tables).
Proof.
  destruct sg_order as (Hne & Hg & HP). split; [exact Hne|]. destruct p_example as (H1 & H2 & _).
  apply (batches_pm rx p_shard 2 ex_vk p_clients p_choices 20 (cfg2 2 3 1) _ _ rx p_shard ex_vk p_clients sg_other 20 (cfg2 2 3 1)); first [assumption | discriminate | reflexivity | cbn; lia].
Qed.
(** *** attribute-based metrics: the first two uploads exchanged *)
Definition sg_swapped : list choice := rev (firstn 2 w_choices) ++ skipn 2 w_choices.
Lemma sg_swap : w_choices <> sg_swapped /\ Forall (good_choice tx 2 ex_vk w_reports) sg_swapped /\
  Forall2 (@Permutation (list bool * nat)) (map (in_table true w_clients) (pieces 2 w_choices)) (map (in_table true w_clients) (pieces 2 sg_swapped)).
Proof.
  split; [discriminate|]. split.
  - pose proof w_choices_good as H. rewrite <- (firstn_skipn 2 w_choices) in H. apply Forall_app in H. destruct H as [Ha Hb]. apply Forall_app. split; [apply Forall_rev; exact Ha|exact Hb].
  - constructor; [exact (Permutation_rev [([true; false; true], 1); ([true; false; true], 0)])|]. constructor; [apply Permutation_refl|]. constructor; [apply Permutation_refl|constructor].
Qed.
