(** ceil(log2 n) in f32. *)
From Coq Require Import Reals ZArith Lia Lra Psatz.
From Verif Require Import SpecFloat.
Open Scope R_scope.

Lemma pow2_pos e : 0 < powerRZ 2 e.  Proof. apply powerRZ_lt. lra. Qed.
Lemma pow2_IZR e : (0 <= e)%Z -> powerRZ 2 e = IZR (2 ^ e).
Proof.
  intros H. rewrite <- (Z2Nat.id e H). rewrite <- pow_powerRZ. rewrite pow_IZR. reflexivity.
Qed.
Lemma is_f32_IZR m : (Z.abs m < 2 ^ 24)%Z -> is_f32 (IZR m).
Proof. intros H. exists m, 0%Z. split; [exact H|]. cbn. lra. Qed.
(** a point exact in f32 rounds to itself *)
Lemma rounds_exact x y : is_f32 x -> rounds_to x y -> y = x.
Proof.
  intros Hx [_ H]. specialize (H x Hx). replace (x - x) with 0 in H by lra. rewrite Rabs_R0 in H. pose proof (Rabs_pos (x - y)).
  assert (Rabs (x - y) = 0) by lra. destruct (Req_dec (x - y) 0) as [He|He]; [lra|]. apply Rabs_no_R0 in He. lra.
Qed.
(** rounding does not cross representable points *)
Lemma rounds_le x y z : is_f32 z -> x <= z -> rounds_to x y -> y <= z.
Proof.
  intros Hz Hx [_ H]. specialize (H z Hz). destruct (Rle_lt_dec y z) as [|Hgt]; [assumption|]. exfalso.
  rewrite (Rabs_left1 (x - y)) in H by lra. rewrite (Rabs_left1 (x - z)) in H by lra. lra.
Qed.
Lemma rounds_ge x y z : is_f32 z -> z <= x -> rounds_to x y -> z <= y.
Proof.
  intros Hz Hx [_ H]. specialize (H z Hz). destruct (Rle_lt_dec z y) as [|Hgt]; [assumption|]. exfalso.
  rewrite (Rabs_right (x - y)) in H by lra. rewrite (Rabs_right (x - z)) in H by lra. lra.
Qed.
Definition h19 : R := / IZR (2 ^ 19).
Lemma h19_pos : 0 < h19.  Proof. unfold h19. apply Rinv_0_lt_compat, IZR_lt. reflexivity. Qed.
Lemma h19_pow : powerRZ 2 (-19) = h19.
Proof. unfold h19. rewrite <- pow2_IZR by lia. change (Z.neg 19) with (Z.opp 19). rewrite powerRZ_neg'. reflexivity. Qed.
Lemma is_f32_step k : (0 <= k <= 20)%Z -> is_f32 (IZR k + h19).
Proof.
  intros Hk. exists (k * 2 ^ 19 + 1)%Z, (-19)%Z. split; [lia|]. rewrite h19_pow, plus_IZR, mult_IZR. unfold h19. field. apply not_0_IZR. discriminate.
Qed.
(** between 21 and 21 + 2^-19 there is nothing *)
Lemma gap z : is_f32 z -> 21 < z < 21 + h19 -> False.
Proof.
  intros (m & e & Hm & ->) [H1 H2]. destruct (Z_lt_le_dec e (-19)) as [He|He].
  - assert (Hle : IZR m * powerRZ 2 e <= IZR (2 ^ 24) * powerRZ 2 (-20)).
    { apply Rle_trans with (IZR (2 ^ 24) * powerRZ 2 e).
      - apply Rmult_le_compat_r; [apply Rlt_le, pow2_pos|]. apply IZR_le. lia.
      - apply Rmult_le_compat_l; [apply IZR_le; lia|]. replace e with ((-20) + (e + 20))%Z by lia. rewrite powerRZ_add by lra.
        rewrite <- (Rmult_1_r (powerRZ 2 (-20))) at 2. apply Rmult_le_compat_l; [apply Rlt_le, pow2_pos|].
        replace (e + 20)%Z with (- (- (e + 20)))%Z by lia. rewrite powerRZ_neg'. rewrite pow2_IZR by lia. rewrite <- Rinv_1 at 1.
        apply Rinv_le_contravar; [lra|]. apply IZR_le. assert (0 < 2 ^ (- (e + 20)))%Z by (apply Z.pow_pos_nonneg; lia). lia. }
    assert (Hx : IZR (2 ^ 24) * powerRZ 2 (-20) = 16).
    { rewrite <- pow2_IZR by lia. rewrite <- powerRZ_add by lra. change (24 + -20)%Z with 4%Z. rewrite pow2_IZR by lia. reflexivity. }
    lra.
  - assert (Hi : IZR m * powerRZ 2 e = IZR (m * 2 ^ (e + 19)) * h19).
    { rewrite mult_IZR, <- pow2_IZR by lia. rewrite <- h19_pow. rewrite Rmult_assoc, <- powerRZ_add by lra. do 2 f_equal. lia. }
    rewrite Hi in H1, H2. assert (Hh : h19 * IZR (2 ^ 19) = 1) by (unfold h19; apply Rinv_l, not_0_IZR; discriminate). pose proof h19_pos as Hp.
    assert (G1 : IZR (21 * 2 ^ 19) < IZR (m * 2 ^ (e + 19))).
    { apply (Rmult_lt_reg_r h19); [exact Hp|]. replace (IZR (21 * 2 ^ 19) * h19) with 21; [exact H1|]. rewrite mult_IZR, Rmult_assoc, (Rmult_comm _ h19), Hh. lra. }
    assert (G2 : IZR (m * 2 ^ (e + 19)) < IZR (21 * 2 ^ 19 + 1)).
    { apply (Rmult_lt_reg_r h19); [exact Hp|]. replace (IZR (21 * 2 ^ 19 + 1) * h19) with (21 + h19); [exact H2|]. rewrite plus_IZR, mult_IZR, Rmult_plus_distr_r, Rmult_assoc, (Rmult_comm _ h19), Hh. lra. }
    apply lt_IZR in G1. apply lt_IZR in G2. lia.
Qed.

Lemma ln2_pos : 0 < ln 2.  Proof. rewrite <- ln_1. apply ln_increasing; lra. Qed.
Lemma log2_lt x y : 0 < x -> x < y -> log2 x < log2 y.
Proof. intros H1 H2. unfold log2, Rdiv. apply Rmult_lt_compat_r; [apply Rinv_0_lt_compat, ln2_pos|]. apply ln_increasing; assumption. Qed.
Lemma log2_le x y : 0 < x -> x <= y -> log2 x <= log2 y.
Proof. intros H1 [H2| ->]; [apply Rlt_le, log2_lt; assumption|lra]. Qed.
Lemma log2_mult x y : 0 < x -> 0 < y -> log2 (x * y) = log2 x + log2 y.
Proof. intros. unfold log2. rewrite ln_mult by assumption. field. apply Rgt_not_eq, ln2_pos. Qed.
Lemma ln_pow x n : 0 < x -> ln (x ^ n) = INR n * ln x.
Proof.
  intros H. induction n as [|n IH]; [cbn; rewrite ln_1; lra|]. cbn [pow]. rewrite ln_mult by (try apply pow_lt; assumption). rewrite IH, S_INR. lra.
Qed.
Lemma log2_pow x n : 0 < x -> log2 (x ^ n) = INR n * log2 x.
Proof. intros H. unfold log2. rewrite ln_pow by exact H. unfold Rdiv. ring. Qed.
Lemma log2_2 : log2 2 = 1.  Proof. unfold log2. field. apply Rgt_not_eq, ln2_pos. Qed.
Lemma log2_pow2 k : log2 (2 ^ k) = INR k.
Proof. rewrite log2_pow by lra. rewrite log2_2. ring. Qed.

(** (1 + 1/n)^n > 2 for n > 1 *)
Lemma bernoulli_strict n x : (2 <= n)%nat -> 0 < x -> 1 + INR n * x < (1 + x) ^ n.
Proof.
  intros Hn Hx. destruct n as [|n]; [lia|]. cbn [pow]. pose proof (poly n x Hx) as Hp.
  assert (1 + INR (S n) * x < (1 + x) * (1 + INR n * x)).
  { rewrite S_INR. assert (0 < INR n) by (apply lt_0_INR; lia). assert (0 < INR n * x * x) by (apply Rmult_lt_0_compat; [apply Rmult_lt_0_compat|]; assumption). nra. }
  apply Rlt_le_trans with ((1 + x) * (1 + INR n * x)); [assumption|]. apply Rmult_le_compat_l; lra.
Qed.
Definition h20 : R := / IZR (2 ^ 20).
Lemma h20_half : h19 = 2 * h20.
Proof. unfold h19, h20. change (2 ^ 20)%Z with (2 * 2 ^ 19)%Z. rewrite mult_IZR. field. apply not_0_IZR. discriminate. Qed.
Lemma h20_pos : 0 < h20.  Proof. pose proof h19_pos. rewrite h20_half in *. lra. Qed.
Lemma INR_pow2 k : INR (2 ^ k) = 2 ^ k.
Proof. rewrite pow_INR. reflexivity. Qed.
Lemma pow2_20 : (2 : R) ^ 20 = IZR (2 ^ 20).
Proof. rewrite pow_IZR. reflexivity. Qed.
(** log2 (1 + 2^-20) lies above the middle of the first gap *)
Lemma above_middle : h20 < log2 (1 + h20).
Proof.
  pose proof h20_pos as Hp. assert (Hb : 2 < (1 + h20) ^ (2 ^ 20)).
  { replace 2 with (1 + INR (2 ^ 20) * h20).
    - apply bernoulli_strict; [|exact Hp]. apply (Nat.pow_le_mono_r 2 1 20); lia.
    - rewrite INR_pow2, pow2_20. unfold h20. rewrite Rinv_r; [lra|]. apply not_0_IZR. discriminate. }
  apply log2_lt in Hb; [|lra]. rewrite log2_2, log2_pow in Hb by lra. rewrite INR_pow2, pow2_20 in Hb.
  apply (Rmult_lt_reg_l (IZR (2 ^ 20))); [apply IZR_lt; reflexivity|]. unfold h20 at 1. rewrite Rinv_r; [exact Hb|]. apply not_0_IZR. discriminate.
Qed.
(** log2 (1 + 2^-21) lies below it *)
Lemma below_middle : log2 (1 + h20 / 2) < h20.
Proof.
  pose proof h20_pos as Hp. assert (Hb : (1 + h20 / 2) ^ (2 ^ 20) < 2).
  { assert (He : (1 + h20 / 2) ^ (2 ^ 20) <= exp (1 / 2)).
    { apply Rle_trans with (exp (h20 / 2) ^ (2 ^ 20)).
      - apply pow_incr. split; [lra|]. apply Rlt_le, exp_ineq1. lra.
      - right. rewrite <- Rpower_pow by apply exp_pos. unfold Rpower. rewrite ln_exp. f_equal. rewrite INR_pow2, pow2_20. unfold h20. field. apply not_0_IZR. discriminate. }
    apply Rle_lt_trans with (exp (1 / 2)); [exact He|].
    assert (exp (1 / 2) * exp (1 / 2) < 2 * 2); [|pose proof (exp_pos (1 / 2)); nra].
    rewrite <- exp_plus. replace (1 / 2 + 1 / 2) with 1 by lra. pose proof exp_le_3. lra. }
  apply log2_lt in Hb; [|apply pow_lt; lra]. rewrite log2_2, log2_pow in Hb by lra. rewrite INR_pow2, pow2_20 in Hb.
  apply (Rmult_lt_reg_l (IZR (2 ^ 20))); [apply IZR_lt; reflexivity|]. unfold h20 at 2. rewrite Rinv_r; [exact Hb|]. apply not_0_IZR. discriminate.
Qed.

Lemma nat_exact n : (n <= 2 ^ 23)%nat -> is_f32 (INR n).
Proof.
  intros H. rewrite INR_IZR_INZ. apply is_f32_IZR. rewrite Z.abs_eq by lia. apply inj_le in H. rewrite Nat2Z.inj_pow in H. cbn in H. lia.
Qed.
Lemma small_exact k : (k <= 22)%nat -> is_f32 (INR k).
Proof. intros H. apply nat_exact. apply Nat.le_trans with 22%nat; [exact H|]. apply Nat.le_trans with (2 ^ 5)%nat; [cbn; lia|]. apply Nat.pow_le_mono_r; lia. Qed.

(** up to 2^21 reports the result is the exact logarithm *)
Lemma clog2_exact n k : (1 <= n <= 2 ^ 21)%nat -> f32_clog2 n k -> (n <= 2 ^ k)%nat /\ (k = 0%nat \/ (2 ^ (k - 1) < n)%nat).
Proof.
  intros [H1 H2] (a & y & Ha & Hy & Hk1 & Hk2).
  assert (a = INR n). { apply rounds_exact; [|exact Ha]. apply nat_exact. eapply Nat.le_trans; [exact H2|]. apply Nat.pow_le_mono_r; lia. }
  subst a. clear Ha.
  (* the exact logarithm j *)
  assert (Hj : exists j, (j <= 21)%nat /\ (n <= 2 ^ j)%nat /\ (j = 0%nat \/ (2 ^ (j - 1) < n)%nat)).
  { exists (Nat.log2_up n). destruct (Nat.eq_dec n 1) as [->|Hn]; [rewrite Nat.log2_up_1; cbn; lia|].
    pose proof (Nat.log2_up_spec n ltac:(lia)) as [Hlo Hhi]. split; [|split; [exact Hhi|right; rewrite Nat.sub_1_r; exact Hlo]].
    apply Nat.log2_up_le_mono in H2. rewrite Nat.log2_up_pow2 in H2 by lia. exact H2. }
  destruct Hj as (j & Hj & Hhi & Hlo).
  assert (Hn0 : 0 < INR n) by (apply lt_0_INR; lia).
  assert (Hyj : y <= INR j).
  { apply (rounds_le (log2 (INR n))); [apply small_exact; lia| |exact Hy]. rewrite <- (log2_pow2 j), <- (INR_pow2 j). apply log2_le; [exact Hn0|apply le_INR, Hhi]. }
  assert (Hyl : INR j - 1 < y).
  { destruct Hlo as [->|Hlo].
    - apply Rlt_le_trans with 0; [cbn; lra|]. apply (rounds_ge (log2 (INR n))); [apply (small_exact 0); lia| |exact Hy].
      replace 0 with (INR 0) by reflexivity. rewrite <- (log2_pow2 0). apply log2_le; [cbn; lra|]. cbn. apply (le_INR 1). exact H1.
    - destruct j as [|j]; [cbn in Hlo, Hhi; lia|]. rewrite S_INR. replace (S j - 1)%nat with j in Hlo by lia.
      assert (Hx : INR j + h20 < log2 (INR n)).
      { apply Rlt_le_trans with (log2 (INR (2 ^ j + 1))).
        - rewrite plus_INR, INR_pow2. change (INR 1) with 1. replace (2 ^ j + 1) with (2 ^ j * (1 + / 2 ^ j)) by (field; apply pow_nonzero; lra).
          assert (Hi : h20 <= / 2 ^ j).
          { unfold h20. rewrite <- pow2_20. apply Rinv_le_contravar; [apply pow_lt; lra|]. apply Rle_pow; [lra|lia]. }
          pose proof h20_pos. rewrite log2_mult by (try apply pow_lt; lra). rewrite log2_pow2. apply Rplus_lt_compat_l. eapply Rlt_le_trans; [apply above_middle|]. apply log2_le; lra.
        - apply log2_le; [apply lt_0_INR; lia|apply le_INR; lia]. }
      assert (Hge : INR j <= y) by (apply (rounds_ge (log2 (INR n))); [apply small_exact; lia|pose proof h20_pos; lra|exact Hy]).
      destruct Hge as [Hgt|He]; [lra|]. exfalso. subst y. destruct Hy as [_ Hy].
      assert (Hf : is_f32 (INR j + h19)) by (rewrite INR_IZR_INZ; apply is_f32_step; lia).
      specialize (Hy _ Hf). rewrite h20_half in Hy. pose proof h20_pos. rewrite (Rabs_right (log2 (INR n) - INR j)) in Hy by lra.
      unfold Rabs in Hy. destruct (Rcase_abs _); lra. }
  assert (k = j).
  { assert (INR k - 1 < INR j) by lra. assert (INR j - 1 < INR k) by lra.
    assert (G1 : (k < j + 1)%nat) by (apply INR_lt; rewrite plus_INR; cbn; lra). assert (G2 : (j < k + 1)%nat) by (apply INR_lt; rewrite plus_INR; cbn; lra). lia. }
  subst j. auto.
Qed.
Lemma log2_first : log2 (INR (2 ^ 21 + 1)) = 21 + log2 (1 + h20 / 2).
Proof.
  rewrite plus_INR, INR_pow2. change (INR 1) with 1. replace (2 ^ 21 + 1) with (2 ^ 21 * (1 + h20 / 2)).
  - pose proof h20_pos. rewrite log2_mult by (try apply pow_lt; lra). rewrite log2_pow2. f_equal. rewrite INR_IZR_INZ. reflexivity.
  - replace ((2 : R) ^ 21) with (2 * 2 ^ 20) by (cbn; ring). rewrite pow2_20. unfold h20. field. apply not_0_IZR. discriminate.
Qed.
Lemma first_exact : is_f32 (INR (2 ^ 21 + 1)).
Proof. apply nat_exact. rewrite (Nat.pow_succ_r' 2 22), (Nat.pow_succ_r' 2 21). pose proof (Nat.pow_nonzero 2 21). lia. Qed.
Lemma log2_first_pos : 0 < log2 (1 + h20 / 2).
Proof. pose proof h20_pos. replace 0 with (log2 1) by (unfold log2; rewrite ln_1; lra). apply log2_lt; lra. Qed.
(** with 2^21 + 1 reports it is 21, one too small *)
Lemma clog2_fails k : f32_clog2 (2 ^ 21 + 1) k -> k = 21%nat.
Proof.
  intros (a & y & Ha & Hy & Hk1 & Hk2). apply (rounds_exact _ _ first_exact) in Ha. subst a. rewrite log2_first in Hy.
  pose proof log2_first_pos as H0. pose proof below_middle as Hm. pose proof h20_half as Hh.
  assert (F21 : is_f32 21) by (apply (is_f32_IZR 21); reflexivity).
  assert (Hy1 : 21 <= y) by (apply (rounds_ge _ _ 21 F21) in Hy; [exact Hy|lra]).
  assert (Hy2 : y = 21).
  { destruct Hy1 as [Hgt|He]; [|symmetry; exact He]. exfalso. apply (gap y (proj1 Hy)). split; [exact Hgt|]. destruct Hy as [_ Hy]. specialize (Hy 21 F21).
    rewrite (Rabs_right (_ - 21)) in Hy by lra. unfold Rabs in Hy. destruct (Rcase_abs _); lra. }
  subst y. assert (I : INR 21 = 21) by (rewrite INR_IZR_INZ; reflexivity).
  assert (G1 : (k < 22)%nat) by (apply INR_lt; rewrite (S_INR 21), I; lra). assert (G2 : (20 < k)%nat). { apply INR_lt. rewrite S_INR in I. lra. } lia.
Qed.
Lemma clog2_fails_exists : f32_clog2 (2 ^ 21 + 1) 21.
Proof.
  exists (INR (2 ^ 21 + 1)), 21. split; [|split].
  - split; [apply first_exact|]. intros z _. replace (_ - _) with 0 by lra. rewrite Rabs_R0. apply Rabs_pos.
  - rewrite log2_first. pose proof log2_first_pos as H0. pose proof below_middle as Hm. pose proof h20_half as Hh. split; [apply (is_f32_IZR 21); reflexivity|].
    intros z Hz. rewrite (Rabs_right (_ - 21)) by lra. destruct (Rle_lt_dec z 21) as [Hle|Hgt].
    + rewrite Rabs_right by lra. lra.
    + assert (21 + h19 <= z). { destruct (Rle_lt_dec (21 + h19) z) as [|Hlt]; [assumption|]. exfalso. apply (gap z Hz). lra. }
      unfold Rabs. destruct (Rcase_abs _); lra.
  - rewrite INR_IZR_INZ. cbn. lra.
Qed.
Lemma clog2_example : f32_clog2 8 3.
Proof.
  assert (F8 : is_f32 (INR 8)) by (apply small_exact; lia). assert (F3 : is_f32 (INR 3)) by (apply small_exact; lia).
  assert (Hr : forall x, is_f32 x -> rounds_to x x). { intros x Hx. split; [exact Hx|]. intros z _. replace (x - x) with 0 by lra. rewrite Rabs_R0. apply Rabs_pos. }
  exists (INR 8), (INR 3). split; [apply Hr, F8|]. split; [|lra]. replace (INR 8) with (2 ^ 3) by (cbn; lra). rewrite log2_pow2. apply Hr, F3.
Qed.
