(** A client that picks its weights after the joint randomness: which weights are accepted, and what a run
    with such a report prints. *)
From Verif Require Import Base BaseFacts Field Util UtilFacts Env Prg Vidpf Merkle Collect Server Driver PrimeFacts Histogram PolyFacts HistFacts HistSound HistRun
  SpecVidpf SpecTree SpecCollect SpecServer SpecDriver SpecLevel SpecWhh SpecHist VidpfFacts PairFacts FlpFacts WhhFacts3 WhhMain VidpfPropFacts DriverFacts.
From Coq Require Import Znumtheory.
Local Open Scope nat_scope.

Lemma f_inverse a : a <> fzero -> exists b, fmul a b = fone.
Proof.
  intros Ha. assert (Hr : rel_prime (fval a) P).
  { apply rel_prime_sym, prime_rel_prime; [exact P_prime|]. intros [k Hk]. apply Ha. apply f_ext. change (fval fzero) with 0%Z. pose proof (fval_range a) as Hb.
    assert (k = 0)%Z by nia. subst k. exact Hk. }
  apply rel_prime_bezout in Hr. destruct Hr as [u v Hu]. exists (of_Z u).
  transitivity (of_Z (u * fval a + v * P)); [|rewrite Hu; reflexivity].
  rewrite of_Z_add, !of_Z_mul, of_Z_fval. assert (HP : of_Z P = fzero) by (apply f_ext; reflexivity). rewrite HP. ring.
Qed.

Lemma single_nth len i t k : k < len -> nth k (single len i t) fzero = if k =? i then t else fzero.
Proof. intros Hk. unfold single. apply (nth_map_seq (fun k => if k =? i then t else fzero)). exact Hk. Qed.
Lemma single_length len i t : length (single len i t) = len.
Proof. unfold single. rewrite map_length, seq_length. reflexivity. Qed.
Lemma single_circuit len i t j0 j1 : i < len ->
  circuit len (single len i t) j0 j1 = fmul (fmul j1 (fsub t fone)) (fadd (fmul (fpow j0 (i + 1)) t) j1).
Proof.
  intros Hi. unfold circuit.
  rewrite (big_ext len _ (fun k => if k =? i then fmul (fpow j0 (k + 1)) (fmul t (fsub t fone)) else fzero)) by (intros k Hk; rewrite single_nth by exact Hk; destruct (k =? i); ring).
  rewrite (big_single len i (fun k => fmul (fpow j0 (k + 1)) (fmul t (fsub t fone)))) by exact Hi.
  rewrite sum_f_big, single_length, (big_ext len _ (fun k => if k =? i then t else fzero)) by (intros k Hk; apply single_nth, Hk).
  rewrite (big_single len i (fun _ => t)) by exact Hi. ring.
Qed.
Lemma single_not_unit len i t : i < len -> t <> fone -> ~ unit_vector len (single len i t).
Proof.
  intros Hi Ht (_ & m & Hm & H). pose proof (H m Hm) as H1. rewrite Nat.eqb_refl, single_nth in H1 by exact Hm. destruct (m =? i) eqn:E; [contradiction|].
  exact (one_ne_zero (eq_sym H1)).
Qed.

Section Run.
Variable E : env.
Hypothesis Hok : env_ok E.
Variable len : nat.
Hypothesis Hlen : hist_ok len = true.
Local Notation H := (with_hist E).

Lemma forged_facts bits vk cl x e : forged_entry E len cl x e -> fair_client E len bits vk cl -> 1 <= bits -> length x = len ->
  good_entry H len bits e /\
  report_verdict H len vk (e_r0 e) (e_r1 e) (feqb (checks len x (nth 0 (prover_joint_rand H len cl) fzero) (nth 1 (prover_joint_rand H len cl) fzero)) fzero).
Proof.
  intros (k0 & k1 & proof & Hg & Hp & ->) (H0 & H1 & Ha & Hr) Hb Hx. cbn [e_r0 e_r1 e_ok e_alpha e_beta].
  assert (Hal : cl_alpha cl <> []) by (intros Hz; rewrite Hz in Ha; cbn in Ha; lia).
  assert (Hk : honest_keys H k0 k1 (cl_alpha cl) x) by (exists (cl_seed0 cl), (cl_seed1 cl); auto).
  destruct (gen_seeds H _ _ _ _ _ _ Hg) as [E0 E1].
  destruct (honest_wf H (with_hist_ok E Hok) _ _ _ _ (gen_honest H _ _ _ _ _ _ H0 H1 Hg)) as [W0 W1]. rewrite Ha in W0, W1.
  split.
  - unfold good_entry. cbn [e_r0 e_r1 e_ok e_alpha e_beta]. split; [apply wf_of; exact W0|]. split; [apply wf_of; exact W1|]. intros _. split; [exact Hk|]. split; [exact Ha|exact Hx].
  - change (jr_part E true k0 (cl_nonce cl)) with (jr_part H true k0 (cl_nonce cl)). change (jr_part E false k1 (cl_nonce cl)) with (jr_part H false k1 (cl_nonce cl)).
    rewrite (joint_two E Hok len cl) in Hp.
    apply (report_checks E Hok len Hlen vk (cl_nonce cl) k0 k1 (cl_alpha cl) x (cl_prove_rand cl) proof); try assumption.
    + unfold joint_rand. cbn [fst snd]. rewrite <- (joint_two E Hok len cl). unfold jr_part, prover_joint_rand. rewrite E0, E1. reflexivity.
    + apply zip_sub_shares. rewrite map_length, seq_length. reflexivity.
Qed.
Lemma forged_exists cl x : length (cl_seed0 cl) = 16 -> length (cl_seed1 cl) = 16 -> length (cl_prove_rand cl) = arity chunk -> length x = len ->
  exists e, forged_entry E len cl x e.
Proof.
  intros H0 H1 Hp Hx. destruct (gen_total H (with_hist_ok E Hok) (cl_seed0 cl) (cl_seed1 cl) (cl_alpha cl) x H0 H1) as (k0 & k1 & Hg).
  eexists. exists k0, k1. eexists. split; [exact Hg|]. split; [|reflexivity]. rewrite (joint_two E Hok len cl).
  rewrite (prove_eq chunk len). rewrite Hx, Hp, !Nat.eqb_refl. reflexivity.
Qed.

Theorem forged_single bits vk cl i : 1 <= bits -> fair_client E len bits vk cl -> length (cl_prove_rand cl) = arity chunk -> i < len ->
  let j0 := nth 0 (prover_joint_rand H len cl) fzero in let j1 := nth 1 (prover_joint_rand H len cl) fzero in
  j0 <> fzero -> fadd (fpow j0 (i + 1)) j1 <> fzero ->
  exists t e, fmul (fpow j0 (i + 1)) t = fneg j1 /\ t <> fone /\ ~ unit_vector len (single len i t) /\
    forged_entry E len cl (single len i t) e /\ good_entry H len bits e /\ report_verdict H len vk (e_r0 e) (e_r1 e) true.
Proof.
  intros Hb Hf Hp Hi j0 j1 Hj0 Hj. destruct (f_inverse (fpow j0 (i + 1)) (fpow_ne_zero _ _ Hj0)) as (b & Hinv).
  set (t := fmul b (fneg j1)). assert (Ht : fmul (fpow j0 (i + 1)) t = fneg j1).
  { unfold t. transitivity (fmul (fmul (fpow j0 (i + 1)) b) (fneg j1)); [ring|]. rewrite Hinv. ring. }
  assert (Ht1 : t <> fone). { intros Hz. rewrite Hz in Ht. apply Hj. transitivity (fadd (fmul (fpow j0 (i + 1)) fone) j1); [ring|]. rewrite Ht. ring. }
  pose proof Hf as (H0 & H1 & _ & _).
  destruct (forged_exists cl (single len i t) H0 H1 Hp (single_length _ _ _)) as (e & He).
  destruct (forged_facts bits vk cl _ e He Hf Hb (single_length _ _ _)) as [Hg Hv].
  exists t, e. split; [exact Ht|]. split; [exact Ht1|]. split; [apply single_not_unit; assumption|]. split; [exact He|]. split; [exact Hg|].
  rewrite <- (circuit_checks len), single_circuit in Hv by exact Hi. fold j0 j1 in Hv. rewrite Ht in Hv.
  assert (Hz : fmul (fmul j1 (fsub t fone)) (fadd (fneg j1) j1) = fzero) by ring. rewrite Hz in Hv. exact Hv.
Qed.

(** the report is counted with its weights *)
Theorem forged_run bits vk cl x e L fuel cfg s0 s1 :
  forged_entry E len cl x e -> fair_client E len bits vk cl -> length x = len ->
  checks len x (nth 0 (prover_joint_rand H len cl) fzero) (nth 1 (prover_joint_rand H len cl) fzero) = fzero ->
  Forall (good_entry H len bits) L -> Forall (fun e => report_verdict H len vk (e_r0 e) (e_r1 e) (e_ok e)) L ->
  (Z.of_nat (S (length L)) < 2 ^ 64)%Z -> cfg_hist cfg = len -> cfg_bits cfg = Some bits -> 0 < cfg_query_batch cfg -> 2 <= bits -> S (length L) <= fuel ->
  uploaded true len bits vk (map e_r0 (e :: L)) s0 -> uploaded false len bits vk (map e_r1 (e :: L)) s1 ->
  (forall l, 1 <= l -> l + 1 < bits -> exists p, length p = l /\ heavy (threshold cfg) (e :: L) p = true) ->
  exists t0 t1, run_whh fuel H cfg s0 s1 (S (length L)) =
    Ret (t0, t1, map (exact_result (e :: L) len) (filter (heavy (threshold cfg) (e :: L)) (all_paths bits))).
Proof.
  intros He Hf Hx Hc Hg Hv Hn C1 C2 C3 Hb Hfu U0 U1 Hh.
  destruct (forged_facts bits vk cl x e He Hf ltac:(lia) Hx) as [Hge Hve]. rewrite Hc, (proj2 (feqb_eq fzero fzero) eq_refl) in Hve.
  assert (Hoke : e_ok e = true) by (destruct He as (k0 & k1 & proof & _ & _ & ->); reflexivity).
  apply (run_whh_any H len bits (e :: L) vk fuel cfg s0 s1); try assumption.
  - constructor; assumption.
  - lia.
  - intros _. split; [cbn [existsb]; rewrite Hoke; reflexivity|]. constructor; [rewrite Hoke; exact Hve|exact Hv].
  - intros Hz. lia.
Qed.
End Run.
