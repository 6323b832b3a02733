(** Concrete cases for C67 and C68. *)
From Verif Require Import Base BaseFacts Field Util Env Prg Vidpf Merkle Collect Server Driver SpecVidpf SpecTree SpecCollect SpecLevel SpecWhh SpecSearch SpecLast SpecRun SpecOrder
  RefEnv ToyEnv ExRun WhhExamples SearchExamples RunExamples.
From Coq Require Import Permutation.

(** strings 101, 101, 001 of honest clients and one spoilt proof, in two orders *)
Definition o_honest : list (nat * kind * bool) := [(0, Good, true); (1, Good, true); (1, BadProof, false); (2, Good, true)].
Definition o_honest' : list (nat * kind * bool) := [(2, Good, true); (1, BadProof, false); (1, Good, true); (0, Good, true)].
Lemma o_honest_ok : Permutation o_honest o_honest' /\ r_result o_honest 2 = Some [([true; false; true], [1; 1; 2])]%Z /\ r_result o_honest' 2 = r_result o_honest 2 /\
  r_result o_honest 1 = Some [([false; false; true], [0; 1; 1]); ([true; false; true], [1; 1; 2])]%Z /\ r_result o_honest' 1 = r_result o_honest 1.
Proof.
  split.
  - unfold o_honest, o_honest'. apply (Permutation_trans (Permutation_rev _)). cbn [rev app]. apply perm_skip, Permutation_refl.
  - repeat split; apply zs_eqb_ok; vm_cast_no_check (eq_refl true).
Qed.

(** two honest reports, one that is inconsistent at the second level and one with a spoilt proof *)
Definition o_second : list (nat * kind * bool) := [(0, BadProof, false); (1, Good, true); (0, BadWord, true); (2, Good, true)].
Definition o_third : list (nat * kind * bool) := [(1, Good, true); (2, Good, true); (0, BadProof, false); (0, BadWord, true)].
Definition o_length (o : option (list (list bool * list Z))) : option nat := match o with Some l => Some (length l) | None => None end.
Definition on_eqb (a b : option nat) : bool := match a, b with Some x, Some y => x =? y | None, None => true | _, _ => false end.
Lemma o_mixed_ok : (Permutation r_mixed o_second /\ Permutation r_mixed o_third) /\ (r_setting r_mixed 1 /\ r_setting o_second 1 /\ r_setting o_third 1) /\
  r_result r_mixed 1 = Some [([false; false; true], [0; 1; 1]); ([true; false; true], [1; 0; 1])]%Z /\ r_result o_second 1 = None /\ on_eqb (o_length (r_result o_third 1)) (Some 5) = true.
Proof.
  split; [|split; [|split; [|split]]].
  - unfold r_mixed, o_second, o_third. split.
    + apply (Permutation_trans (l' := [(0, BadProof, false); (1, Good, true); (0, BadWord, true)] ++ [(2, Good, true)])); [|apply Permutation_refl].
      change (Permutation (([(1, Good, true); (0, BadWord, true)] ++ [(0, BadProof, false)]) ++ [(2, Good, true)]) (([(0, BadProof, false)] ++ [(1, Good, true); (0, BadWord, true)]) ++ [(2, Good, true)])).
      apply Permutation_app_tail, Permutation_app_comm.
    + apply perm_skip. change (Permutation ([(0, BadWord, true); (0, BadProof, false)] ++ [(2, Good, true)]) ([(2, Good, true)] ++ [(0, BadProof, false); (0, BadWord, true)])).
      apply (Permutation_trans (Permutation_app_comm _ _)). cbn [app]. apply perm_skip, perm_swap.
  - split; [|split]; apply r_setting_ok; vm_cast_no_check (eq_refl true).
  - apply zs_eqb_ok. vm_cast_no_check (eq_refl true).
  - apply zs_eqb_ok. vm_cast_no_check (eq_refl true).
  - vm_cast_no_check (eq_refl true).
Qed.

(** the client with 001 uploads its report three times; threshold 3 *)
Definition o_once : list (nat * kind * bool) := [(0, Good, true); (1, Good, true); (2, Good, true)].
Definition o_thrice : list (nat * kind * bool) := [(0, Good, true); (1, Good, true); (2, Good, true); (2, Good, true); (2, Good, true)].
Lemma o_replay_ok : r_setting o_thrice 3 /\ r_result o_once 3 = None /\ r_result o_thrice 3 = Some [([false; false; true], [0; 3; 3])]%Z.
Proof. split; [apply r_setting_ok; vm_cast_no_check (eq_refl true)|]. split; apply zs_eqb_ok; vm_cast_no_check (eq_refl true). Qed.

Lemma r_result_visible us thr : r_result us thr = match visible (run_whh 20 tx (w_cfg thr) (fst (r_start us)) (snd (r_start us)) (length us)) with
  | Ret l => Some (map (fun r => (res_path r, map fval (res_value r))) l) | Panic _ => None end.
Proof. unfold r_result. destruct (run_whh 20 tx (w_cfg thr) (fst (r_start us)) (snd (r_start us)) (length us)) as [[[a b] l]|k]; reflexivity. Qed.
Lemma order_refuted : exists E len bits vk cfg fuel R R' s0 s1 s0' s1', env_ok E /\ Permutation R R' /\
  well_formed_pairs bits R /\ flp_flags E len bits vk R /\ cfg_hist cfg = len /\ cfg_bits cfg = Some bits /\ 0 < cfg_query_batch cfg /\ length R + 2 <= fuel /\
  uploaded true len bits vk (map (share_of true) R) s0 /\ uploaded false len bits vk (map (share_of false) R) s1 /\
  uploaded true len bits vk (map (share_of true) R') s0' /\ uploaded false len bits vk (map (share_of false) R') s1' /\
  is_ret (run_whh fuel E cfg s0 s1 (length R)) = true /\ is_ret (run_whh fuel E cfg s0' s1' (length R')) = false.
Proof.
  destruct o_mixed_ok as ((HP & _) & (S1 & S2 & _) & R1 & R2 & _).
  exists tx, 2, 3, ex_vk, (w_cfg 1), 20, (r_pairs r_mixed), (r_pairs o_second), (fst (r_start r_mixed)), (snd (r_start r_mixed)), (fst (r_start o_second)), (snd (r_start o_second)).
  destruct S1 as (A1 & A2 & _ & A3 & A4). destruct S2 as (_ & _ & _ & B3 & B4).
  split; [apply toy_env_ok|]. split; [apply Permutation_map, HP|]. split; [exact A1|]. split; [exact A2|]. do 2 (split; [reflexivity|]). split; [apply Nat.ltb_lt; reflexivity|].
  split; [apply Nat.leb_le; reflexivity|]. do 4 (split; [assumption|]). split.
  - rewrite r_result_visible in R1. change (length (r_pairs r_mixed)) with (length r_mixed). destruct (run_whh 20 tx (w_cfg 1) (fst (r_start r_mixed)) (snd (r_start r_mixed)) (length r_mixed)); [reflexivity|discriminate R1].
  - rewrite r_result_visible in R2. change (length (r_pairs o_second)) with (length o_second). destruct (run_whh 20 tx (w_cfg 1) (fst (r_start o_second)) (snd (r_start o_second)) (length o_second)) as [[[a b] l]|k]; [discriminate R2|reflexivity].
Qed.
