(** Proofs: what a complete run reports, in terms of the configured fraction. *)
From Verif Require Import Base Field Util Env Prg Vidpf Merkle Collect Server Driver SpecVidpf SpecCollect SpecServer SpecDriver SpecLevel SpecWhh PropWhh WhhExamples
  Threshold SpecThreshold ThresholdFacts.
From Coq Require Import ZArith Lia.
From Coq Require Import Floats.SpecFloat.

Lemma C56_bounds_lemma : forall m k n c, sensible m k n ->
  (share_le m k n c -> (f64_threshold (fraction m k) n <= c)%Z) /\ (share_ge m k n c -> (c <= f64_threshold (fraction m k) n)%Z).
Proof. intros m k n c (A & B & C). exact (threshold_bounds m k n c A B C). Qed.
Lemma C56_down_lemma : forall m k n c, sensible m k n -> share_gt m k n c -> share_le_half m k n c -> f64_threshold (fraction m k) n = c.
Proof. intros m k n c (A & B & C) H1 H2. unfold share_gt, share_le_half, fraction in *. apply threshold_down; try assumption. lia. Qed.

Lemma C56_run_lemma : forall E len bits vk clients reports chs fuel cfg s0 s1 m k,
  env_ok E -> 1 <= bits -> mapM (gen_report E len) clients = Ret reports ->
  Forall (good_client E len bits vk) clients -> Forall (good_choice E len vk reports) chs ->
  cfg_hist cfg = len -> cfg_bits cfg = Some bits -> 0 < cfg_query_batch cfg -> 0 < cfg_add_batch cfg -> hist_ok len = true -> clients <> [] ->
  length chs <= fuel -> running 0 bits s0 -> (exists id, id <> 0%Z /\ running id bits s1) ->
  (2 <= bits -> existsb counts chs = true) -> (bits = 1 -> forallb counts chs = true) ->
  (forall l, 1 <= l -> l + 1 < bits -> exists p, length p = l /\ popular (threshold cfg) (ballots clients chs) p = true) ->
  sensible m k (Z.of_nat (length chs)) -> cfg_thr cfg = f64_threshold (fraction m k) (Z.of_nat (length chs)) ->
  exists t0 t1 printed, main_whh fuel E cfg clients vk chs s0 s1 = Ret (t0, t1, printed) /\
    forall p, length p = bits -> let held := tally (ballots clients chs) p in
      ((1 <= held)%Z -> share_le m k (Z.of_nat (length chs)) held -> In (tally_result (ballots clients chs) len p) printed) /\
      (In p (map res_path printed) -> (1 <= held)%Z /\ ~ share_ge m k (Z.of_nat (length chs)) (held + 1)) /\
      (forall c, (1 <= c)%Z -> share_gt m k (Z.of_nat (length chs)) c -> share_le_half m k (Z.of_nat (length chs)) c ->
         (In p (map res_path printed) <-> (c <= held)%Z)).
Proof.
  intros E len bits vk clients reports chs fuel cfg s0 s1 m k Hok Hb Hr Hc Hh H1 H2 H3 H4 H5 Hne H6 H7 H8 H9 H10 H11 Hs Ht.
  assert (Hl : (Z.of_nat (length chs) < 2 ^ 64)%Z).
  { destruct Hs as (_ & [_ X] & _). assert (2 ^ 53 < 2 ^ 64)%Z by reflexivity. lia. }
  destruct (C22_main E len bits vk clients reports chs fuel cfg s0 s1 Hok Hb Hr Hc Hh H1 H2 H3 H4 H5 Hne H6 Hl H7 H8 H9 H10 H11) as (t0 & t1 & R).
  exists t0, t1, (map (tally_result (ballots clients chs) len) (filter (popular (threshold cfg) (ballots clients chs)) (all_paths bits))).
  split; [exact R|]. intros p Hp held. set (n := Z.of_nat (length chs)) in *.
  assert (Hin : In p (map res_path (map (tally_result (ballots clients chs) len) (filter (popular (threshold cfg) (ballots clients chs)) (all_paths bits)))) <-> (threshold cfg <= held)%Z).
  { rewrite map_map. cbn [tally_result res_path]. rewrite map_id, filter_In. unfold popular. fold held. rewrite Z.leb_le.
    split; [intros [_ X]; exact X|intro X; split; [apply (proj2 (C22_order bits)); exact Hp|exact X]]. }
  assert (Th : threshold cfg = Z.max 1 (f64_threshold (fraction m k) n)) by (unfold threshold; rewrite Ht; reflexivity). split; [|split].
  - intros Q1 Q2. apply in_map. apply filter_In. split; [apply (proj2 (C22_order bits)); exact Hp|].
    unfold popular. fold held. apply Z.leb_le. rewrite Th. apply Z.max_lub; [exact Q1|].
    apply (proj1 (C56_bounds_lemma m k n held Hs)). exact Q2.
  - intro Q. apply (proj1 Hin) in Q. rewrite Th in Q. split; [lia|]. intro X. apply (proj2 (C56_bounds_lemma m k n (held + 1) Hs)) in X. lia.
  - intros c Q1 Q2 Q3. rewrite (C56_down_lemma m k n c Hs Q2 Q3), Z.max_r in Th by lia. rewrite Th in Hin at 2. exact Hin.
Qed.

Lemma C56_example_proof :
  sensible 5404319552844595 54 5 /\ share_gt 5404319552844595 54 5 1 /\ share_le_half 5404319552844595 54 5 1 /\
  length w_choices = 5 /\ f64_threshold f64_30 5 = 1%Z /\ f64_threshold f64_50 5 = 2%Z /\ f64_threshold f64_29 100 = 28%Z /\
  tally (ballots w_clients w_choices) [false; false; true] = 1%Z.
Proof. unfold sensible, share_gt, share_le_half. repeat split; vm_compute; congruence. Qed.

Lemma C56_rest_lemma : forall n, (1 <= n < 2 ^ 53)%Z ->
  f64_threshold S754_nan n = 0%Z /\ f64_threshold (S754_infinity false) n = (2 ^ 64 - 1)%Z /\ f64_threshold (S754_infinity true) n = 0%Z /\
  (forall s, f64_threshold (S754_zero s) n = 0%Z) /\ (forall m e, f64_threshold (S754_finite true m e) n = 0%Z).
Proof.
  intros n Hn. split; [exact (threshold_rest S754_nan n Hn)|]. split; [exact (threshold_rest (S754_infinity false) n Hn)|].
  split; [exact (threshold_rest (S754_infinity true) n Hn)|].
  split; [intros s; exact (threshold_rest (S754_zero s) n Hn)|intros m e; exact (threshold_rest (S754_finite true m e) n Hn)].
Qed.

Lemma C58_lemma : forall n, (0 <= n < 2 ^ 52)%Z ->
  let c := plain_chunk_length n in (0 <= c /\ c * c <= n < (c + 1) * (c + 1))%Z.
Proof.
  intros n Hn. cbv zeta. rewrite plain_chunk_ok by exact Hn. split; [apply Z.sqrt_nonneg|]. exact (Z.sqrt_spec n (proj1 Hn)).
Qed.
Lemma C58_refuted_lemma : exists n, (n < 2 ^ 64)%Z /\ let c := plain_chunk_length n in (n < c * c)%Z.
Proof. exists (2 ^ 54 - 1)%Z. vm_compute. split; reflexivity. Qed.

Lemma C58_model_lemma : forall len, hist_ok len = true -> plain_chunk_length (Z.of_nat len) = Z.of_nat (chunk_length_plain len) /\ 1 <= chunk_length_plain len.
Proof.
  intros len H. unfold hist_ok in H. apply andb_prop in H. destruct H as [H1 H2]. apply N.ltb_lt in H2.
  apply negb_true_iff in H1. apply Nat.eqb_neq in H1.
  assert (B : (0 <= Z.of_nat len < 2 ^ 52)%Z).
  { split; [lia|]. assert (Z.of_nat len < 4294967295)%Z by lia. assert (4294967295 < 2 ^ 52)%Z by reflexivity. lia. }
  rewrite plain_chunk_ok by exact B. unfold chunk_length_plain. split.
  - assert (S := Nat.sqrt_spec len ltac:(lia)). apply Z.sqrt_unique. lia.
  - destruct (Nat.sqrt len) as [|n] eqn:S; [|lia]. assert (T := Nat.sqrt_spec len ltac:(lia)). rewrite S in T. lia.
Qed.

Lemma C56_conversion_lemma : forall m e c,
  (0 <= e -> f64_as_u64 (S754_finite false m e) = c <-> c < 2 ^ 64 - 1 /\ Zpos m * 2 ^ e = c \/ c = 2 ^ 64 - 1 /\ c <= Zpos m * 2 ^ e)%Z /\
  (e < 0 -> f64_as_u64 (S754_finite false m e) = c <->
     c < 2 ^ 64 - 1 /\ c * 2 ^ (- e) <= Zpos m < (c + 1) * 2 ^ (- e) \/ c = 2 ^ 64 - 1 /\ c * 2 ^ (- e) <= Zpos m)%Z.
Proof.
  intros m e c. cbn [f64_as_u64]. set (top := (2 ^ 64 - 1)%Z). split; intro He.
  - replace (e <? 0)%Z with false by (symmetry; apply Z.ltb_ge; lia). lia.
  - replace (e <? 0)%Z with true by (symmetry; apply Z.ltb_lt; lia).
    assert (P := pow2_pos (- e) ltac:(lia)). set (G := (2 ^ (- e))%Z) in *.
    assert (D := Z.div_mod (Zpos m) G ltac:(lia)). assert (B := Z.mod_pos_bound (Zpos m) G ltac:(lia)). set (q := (Zpos m / G)%Z) in *.
    assert (L : forall x, (x * G <= Zpos m <-> x <= q)%Z).
    { intro x. split; intro X; [apply Z.div_le_lower_bound; lia|]. apply Z.le_trans with (q * G)%Z; [apply Z.mul_le_mono_nonneg_r; lia|lia]. }
    assert (L1 := L c). assert (L2 := L (c + 1)%Z). lia.
Qed.
