(** p = 2^128 - 7*2^66 + 1 is prime (Proth): 7^((p-1)/2) = -1 and p - 1 = 2^66 * k with 2^66 > sqrt p. *)
From Verif Require Import Base Field.
From Coq Require Import Znumtheory Zpow_facts.
Local Open Scope Z_scope.

Lemma odd_part (n : nat) : (0 < n)%nat -> exists s o, n = (2 ^ s * (2 * o + 1))%nat.
Proof.
  induction n as [n IH] using (well_founded_induction lt_wf). intros Hn.
  destruct (Nat.Even_or_Odd n) as [[k Hk]|[k Hk]].
  - destruct (IH k) as (s & o & E); [lia|lia|]. exists (S s), o. rewrite Hk, E. cbn [Nat.pow]. lia.
  - exists 0%nat, k. cbn. lia.
Qed.

(** congruence modulo q *)
Definition cong (q a b : Z) : Prop := (q | a - b).
Lemma cong_refl q a : cong q a a.
Proof. exists 0. ring. Qed.
Lemma cong_sym q a b : cong q a b -> cong q b a.
Proof. intros [k H]. exists (- k). lia. Qed.
Lemma cong_trans q a b c : cong q a b -> cong q b c -> cong q a c.
Proof. intros [k H] [k' H']. exists (k + k'). lia. Qed.
Lemma cong_mul q a b c d : cong q a b -> cong q c d -> cong q (a * c) (b * d).
Proof. intros [k H] [k' H']. exists (k * c + b * k'). replace (a * c - b * d) with ((a - b) * c + b * (c - d)) by ring. rewrite H, H'. ring. Qed.
Lemma cong_pow q a b n : cong q a b -> cong q (a ^ Z.of_nat n) (b ^ Z.of_nat n).
Proof.
  intros H. induction n as [|n IH]; [apply cong_refl|].
  rewrite Nat2Z.inj_succ, !Z.pow_succ_r by lia. apply cong_mul; assumption.
Qed.

Lemma NoDup_map_in {A B} (f : A -> B) l : (forall a b, In a l -> In b l -> f a = f b -> a = b) -> NoDup l -> NoDup (map f l).
Proof.
  induction l as [|x l IH]; intros Hf Hn; [constructor|]. inversion Hn as [|? ? Hx Hl]; subst. cbn [map]. constructor.
  - intros H. apply in_map_iff in H. destruct H as (y & Hy & Hin). apply Hx. rewrite <- (Hf y x); [exact Hin|right; exact Hin|left; reflexivity|exact Hy].
  - apply IH; [|exact Hl]. intros a b Ha Hb. apply Hf; right; assumption.
Qed.

Section Order.
Variables (q g : Z) (t : nat).
Hypothesis Hq : 2 < q.
(** g has order 2^(t+1) *)
Hypothesis Hg : cong q (g ^ (2 ^ Z.of_nat t)) (-1).
Let M : Z := 2 ^ Z.of_nat (S t).
Let M_eq : M = 2 ^ Z.of_nat t + 2 ^ Z.of_nat t.
Proof. unfold M. rewrite Nat2Z.inj_succ, Z.pow_succ_r by lia. ring. Qed.
Let M_pos : 0 < 2 ^ Z.of_nat t.
Proof. apply Z.pow_pos_nonneg; lia. Qed.

Lemma g_order : cong q (g ^ M) 1.
Proof.
  rewrite M_eq, Z.pow_add_r by lia. change 1 with (-1 * -1). apply cong_mul; exact Hg.
Qed.

Lemma g_not_one (d : nat) : (0 < d)%nat -> Z.of_nat d < M -> ~ cong q (g ^ Z.of_nat d) 1.
Proof.
  intros Hd Hb H. destruct (odd_part d Hd) as (s & o & E).
  assert (Hs : (s <= t)%nat).
  { destruct (le_lt_dec s t) as [?|Hs]; [assumption|exfalso].
    assert (M <= Z.of_nat d); [|lia]. rewrite E, Nat2Z.inj_mul, Nat2Z.inj_pow. change (Z.of_nat 2) with 2.
    assert (M <= 2 ^ Z.of_nat s) by (apply Z.pow_le_mono_r; lia). nia. }
  apply (cong_pow _ _ _ (2 ^ (t - s))) in H. rewrite Z.pow_1_l in H by lia.
  rewrite <- Z.pow_mul_r in H by lia.
  assert (E2 : Z.of_nat d * Z.of_nat (2 ^ (t - s)) = 2 ^ Z.of_nat t * Z.of_nat (2 * o + 1)).
  { rewrite E, Nat2Z.inj_mul, !Nat2Z.inj_pow. change (Z.of_nat 2) with 2.
    replace (2 ^ Z.of_nat t) with (2 ^ Z.of_nat s * 2 ^ Z.of_nat (t - s)); [ring|]. rewrite <- Z.pow_add_r by lia. f_equal. lia. }
  rewrite E2, Z.pow_mul_r in H by lia.
  pose proof (cong_pow q _ _ (2 * o + 1) Hg) as H2.
  assert (E3 : (-1) ^ Z.of_nat (2 * o + 1) = -1).
  { rewrite Nat2Z.inj_add, Nat2Z.inj_mul, Z.pow_add_r, Z.pow_mul_r by lia. change ((-1) ^ Z.of_nat 2) with 1. rewrite Z.pow_1_l by lia. reflexivity. }
  rewrite E3 in H2. destruct (cong_trans _ _ _ _ (cong_sym _ _ _ H) H2) as [k Hk].
  clear - Hk Hq. assert (k = 0 \/ k <= -1 \/ 1 <= k) as [->|[?|?]] by lia; nia.
Qed.

Lemma g_inj (i j : nat) : (i < j)%nat -> Z.of_nat j < M -> ~ cong q (g ^ Z.of_nat i) (g ^ Z.of_nat j).
Proof.
  intros Hi Hj H. apply (g_not_one (j - i)); [lia|lia|].
  pose proof (cong_mul q _ _ _ _ H (cong_refl q (g ^ (M - Z.of_nat i)))) as H1.
  rewrite <- !Z.pow_add_r in H1 by lia.
  replace (Z.of_nat i + (M - Z.of_nat i)) with M in H1 by ring.
  replace (Z.of_nat j + (M - Z.of_nat i)) with (M + Z.of_nat (j - i)) in H1 by lia.
  rewrite Z.pow_add_r in H1 by lia.
  apply cong_trans with (g ^ M * g ^ Z.of_nat (j - i)).
  - replace (g ^ Z.of_nat (j - i)) with (1 * g ^ Z.of_nat (j - i)) at 1 by ring. apply cong_mul; [apply cong_sym, g_order|apply cong_refl].
  - apply cong_trans with (g ^ M); [apply cong_sym; exact H1|apply g_order].
Qed.

Lemma big_factor : 2 ^ Z.of_nat (S t) <= q.
Proof.
  destruct (Z_le_gt_dec (2 ^ Z.of_nat (S t)) q) as [?|Hlt]; [assumption|exfalso]. fold M in Hlt.
  set (n := Z.to_nat q).
  set (f := fun i : nat => g ^ Z.of_nat i mod q).
  assert (Hnd : NoDup (map f (seq 0 (S n)))).
  { apply NoDup_map_in; [|apply seq_NoDup].
    intros a b Ha Hb Hab. apply in_seq in Ha, Hb. unfold f in Hab.
    assert (Hc : cong q (g ^ Z.of_nat a) (g ^ Z.of_nat b)).
    { unfold cong. apply Z.mod_divide; [lia|]. rewrite Zminus_mod, Hab, Z.sub_diag. apply Z.mod_0_l. lia. }
    destruct (lt_eq_lt_dec a b) as [[?|?]|?]; [exfalso; apply (g_inj a b); [lia|lia|exact Hc]|assumption|exfalso; apply (g_inj b a); [lia|lia|apply cong_sym; exact Hc]]. }
  assert (Hin : incl (map f (seq 0 (S n))) (map Z.of_nat (seq 0 n))).
  { intros x Hx. apply in_map_iff in Hx. destruct Hx as (i & <- & _). apply in_map_iff.
    pose proof (Z.mod_pos_bound (g ^ Z.of_nat i) q ltac:(lia)). exists (Z.to_nat (f i)). unfold f. split; [lia|]. apply in_seq. lia. }
  pose proof (NoDup_incl_length Hnd Hin) as Hl. rewrite !map_length, !seq_length in Hl. lia.
Qed.
End Order.

Lemma proth : 7 ^ ((P - 1) / 2) mod P = P - 1.
Proof. rewrite <- Zpow_mod_correct by discriminate. vm_cast_no_check (eq_refl (P - 1)). Qed.

Lemma proth_exp : exists k, 0 <= k /\ k * 2 ^ 65 = (P - 1) / 2.
Proof. exists 4611686018427387897. split; [discriminate|vm_compute; reflexivity]. Qed.

Theorem P_prime : prime P.
Proof.
  destruct (prime_dec P) as [|Hn]; [assumption|exfalso].
  apply not_prime_divide in Hn; [|reflexivity]. destruct Hn as (q & Hq & Hd).
  assert (Hall : forall q, 1 < q -> (q | P) -> 2 ^ 66 <= q).
  { clear q Hq Hd. intros q Hq Hd. destruct (Z.eq_dec q 2) as [->|Hq2].
    - exfalso. destruct Hd as [k Hk]. assert (E : P = 2 * 170141183460469231473432886683950383104 + 1) by reflexivity. lia.
    - destruct proth_exp as (k & Hk0 & Hk).
      apply (big_factor q (7 ^ k) 65); [lia|].
      change (2 ^ Z.of_nat 65) with (2 ^ 65).
      unfold cong. rewrite <- Z.pow_mul_r by (first [exact Hk0|discriminate]). rewrite Hk.
      apply Z.divide_trans with P; [exact Hd|].
      apply Z.mod_divide; [discriminate|]. rewrite Zminus_mod, proth. reflexivity. }
  pose proof (Hall q ltac:(lia) Hd) as H1. destruct Hd as [k Hk].
  assert (Hk1 : 1 < k) by nia.
  pose proof (Hall k Hk1 ltac:(exists q; lia)) as H2.
  assert (H3 : 2 ^ 66 * 2 ^ 66 <= P) by (rewrite Hk; apply Z.mul_le_mono_nonneg; lia). revert H3. apply Z.lt_nge. reflexivity.
Qed.

Lemma f_integral a b : fmul a b = fzero -> a = fzero \/ b = fzero.
Proof.
  intros H. apply (f_equal fval) in H. unfold fmul, fzero in H. rewrite !fval_of_Z in H. change (0 mod P) with 0 in H.
  apply Z.mod_divide in H; [|discriminate].
  assert (Hz : forall x, (P | fval x) -> x = fzero).
  { intros x [k Hk]. apply f_ext. change (fval fzero) with 0. pose proof (fval_range x). assert (k = 0) by nia. lia. }
  destruct (prime_mult P P_prime _ _ H); [left|right]; apply Hz; assumption.
Qed.
