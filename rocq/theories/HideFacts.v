From Verif Require Import Base Field Util Env Vidpf Collect Driver SpecHide.
Local Open Scope Z_scope.

Section S.
Variables (p q : Z).
Hypothesis Hp : 0 < p.
Hypothesis Hq : p <= q < 2 * p.

Lemma sum_ext n f g : (forall i, 0 <= i < Z.of_nat n -> f i = g i) -> sum_upto n f = sum_upto n g.
Proof. induction n; intros H; cbn [sum_upto]; [reflexivity|]. rewrite (H (Z.of_nat n)) by lia. rewrite IHn; [reflexivity|]. intros; apply H; lia. Qed.

Lemma sum_range n f B : (forall i, 0 <= i < Z.of_nat n -> 0 <= f i <= B) -> 0 <= sum_upto n f <= Z.of_nat n * B.
Proof.
  induction n; intros H; cbn [sum_upto]; [lia|].
  assert (H1 := H (Z.of_nat n) ltac:(lia)). assert (H2 : 0 <= sum_upto n f <= Z.of_nat n * B) by (apply IHn; intros; apply H; lia). nia.
Qed.

Lemma sum_diff n f g D : (forall i, 0 <= i < Z.of_nat n -> Z.abs (f i - g i) <= D) -> Z.abs (sum_upto n f - sum_upto n g) <= Z.of_nat n * D.
Proof.
  induction n; intros H; cbn [sum_upto]; [lia|].
  assert (H1 := H (Z.of_nat n) ltac:(lia)). assert (H2 : Z.abs (sum_upto n f - sum_upto n g) <= Z.of_nat n * D) by (apply IHn; intros; apply H; lia).
  replace (Z.of_nat (S n) * D) with (Z.of_nat n * D + D) by lia. lia.
Qed.

Lemma sum_app a b f : sum_upto (a + b) f = sum_upto a f + sum_upto b (fun i => f (Z.of_nat a + i)).
Proof.
  induction b; cbn [sum_upto]; [rewrite Nat.add_0_r; lia|].
  rewrite Nat.add_succ_r. cbn [sum_upto]. rewrite IHb. replace (Z.of_nat (a + b)) with (Z.of_nat a + Z.of_nat b) by lia. lia.
Qed.

Lemma sum_rev n f : sum_upto n f = sum_upto n (fun i => f (Z.of_nat n - 1 - i)).
Proof.
  induction n; [reflexivity|].
  change (S n) with (1 + n)%nat at 2. rewrite sum_app. cbn [sum_upto]. rewrite IHn.
  rewrite (sum_ext n (fun i => f (Z.of_nat (S n) - 1 - (Z.of_nat 1 + i))) (fun i => f (Z.of_nat n - 1 - i))).
  2:{ intros i Hi. f_equal. lia. }
  replace (Z.of_nat (S n) - 1 - Z.of_nat 0) with (Z.of_nat n) by lia. lia.
Qed.

(** a whole period of a shifted sequence has the same sum *)
Lemma sum_shift x f : 0 <= x < p -> sum_upto (Z.to_nat p) (fun u => f ((u + x) mod p)) = sum_upto (Z.to_nat p) f.
Proof.
  intros Hx.
  assert (E : Z.to_nat p = (Z.to_nat (p - x) + Z.to_nat x)%nat) by lia.
  rewrite E at 1. rewrite sum_app.
  rewrite (sum_ext (Z.to_nat (p - x)) _ (fun u => f (Z.of_nat (Z.to_nat x) + u))).
  2:{ intros i Hi. f_equal. rewrite Z.mod_small by lia. lia. }
  rewrite (sum_ext (Z.to_nat x) _ f).
  2:{ intros i Hi. f_equal. replace (Z.of_nat (Z.to_nat (p - x)) + i + x) with (i + 1 * p) by lia. rewrite Z.mod_add by lia. apply Z.mod_small. lia. }
  assert (E2 : Z.to_nat p = (Z.to_nat x + Z.to_nat (p - x))%nat) by lia.
  rewrite E2. rewrite sum_app. lia.
Qed.

Lemma sum_period x f : sum_upto (Z.to_nat p) (fun u => f ((x - u) mod p)) = sum_upto (Z.to_nat p) f.
Proof.
  rewrite sum_rev.
  rewrite (sum_ext _ _ (fun u => f ((u + (x + 1) mod p) mod p))).
  - apply sum_shift. apply Z.mod_pos_bound. lia.
  - intros i Hi. f_equal. rewrite Z2Nat.id by lia. rewrite Zplus_mod_idemp_r.
    replace (x - (p - 1 - i)) with (i + (x + 1) + (-1) * p) by lia. apply Z.mod_add. lia.
Qed.

(** all u128 values: one period and a bit *)
Lemma sum_draws x y f B : (forall i, 0 <= i < p -> 0 <= f i <= B) ->
  Z.abs (sum_upto (Z.to_nat q) (fun u => f ((x - u) mod p)) - sum_upto (Z.to_nat q) (fun u => f ((y - u) mod p))) <= (q - p) * B.
Proof.
  intros H.
  assert (E : Z.to_nat q = (Z.to_nat p + Z.to_nat (q - p))%nat) by lia.
  rewrite E, !sum_app, !sum_period.
  assert (R : forall z, 0 <= sum_upto (Z.to_nat (q - p)) (fun i => f ((z - (Z.of_nat (Z.to_nat p) + i)) mod p)) <= Z.of_nat (Z.to_nat (q - p)) * B).
  { intros z. apply sum_range. intros i _. apply H. apply Z.mod_pos_bound. lia. }
  assert (Rx := R x). assert (Ry := R y). rewrite (Z2Nat.id (q - p)) in Rx, Ry by lia. lia.
Qed.

(** the number of draws that hit one value *)
Lemma sum_one n v : sum_upto n (fun u => if u =? v then 1 else 0) = if (0 <=? v) && (v <? Z.of_nat n) then 1 else 0.
Proof.
  induction n; cbn [sum_upto]; [destruct (Z.leb_spec 0 v), (Z.ltb_spec v (Z.of_nat 0)); cbn; lia|].
  rewrite IHn. destruct (Z.eqb_spec (Z.of_nat n) v), (Z.leb_spec 0 v), (Z.ltb_spec v (Z.of_nat n)), (Z.ltb_spec v (Z.of_nat (S n))); cbn; lia.
Qed.

Lemma hit_iff x s u : 0 <= s < p -> 0 <= u < q -> ((x - u) mod p =? s) = ((u =? (x - s) mod p) || (u =? (x - s) mod p + p)).
Proof.
  intros Hs Hu. apply Bool.eq_iff_eq_true. rewrite Bool.orb_true_iff, !Z.eqb_eq.
  assert (A := Z.mod_pos_bound (x - s) p Hp).
  assert (D := Z.div_mod (x - s) p ltac:(lia)).
  assert (D2 := Z.div_mod (x - u) p ltac:(lia)).
  assert (A2 := Z.mod_pos_bound (x - u) p Hp).
  split; intros H.
  - assert (E : (x - s) mod p = u mod p).
    { rewrite <- H. replace (x - (x - u) mod p) with (u + ((x - u) / p) * p) by lia. apply Z.mod_add. lia. }
    rewrite E. assert (Du := Z.div_mod u p ltac:(lia)). assert (Au := Z.mod_pos_bound u p Hp).
    assert (Q : u / p = 0 \/ u / p = 1).
    { assert (0 <= u / p) by (apply Z.div_pos; lia). assert (u / p < 2) by (apply Z.div_lt_upper_bound; lia). lia. }
    destruct Q as [Q|Q]; rewrite Q in Du; lia.
  - destruct H as [H|H]; rewrite H.
    + replace (x - (x - s) mod p) with (s + ((x - s) / p) * p) by lia. rewrite Z.mod_add by lia. apply Z.mod_small. lia.
    + replace (x - ((x - s) mod p + p)) with (s + ((x - s) / p - 1) * p) by lia. rewrite Z.mod_add by lia. apply Z.mod_small. lia.
Qed.

Lemma sum_add n f g : sum_upto n (fun u => f u + g u) = sum_upto n f + sum_upto n g.
Proof. induction n; cbn [sum_upto]; [reflexivity|]. rewrite IHn. lia. Qed.
Lemma sum_scale n f c : sum_upto n (fun u => c * f u) = c * sum_upto n f.
Proof. induction n; cbn [sum_upto]; [lia|]. rewrite IHn. lia. Qed.

Lemma hits x s : 0 <= s < p ->
  sum_upto (Z.to_nat q) (fun u => if (x - u) mod p =? s then 1 else 0) = if (x - s) mod p <? q - p then 2 else 1.
Proof.
  intros Hs. assert (A := Z.mod_pos_bound (x - s) p Hp).
  rewrite (sum_ext _ _ (fun u => (if u =? (x - s) mod p then 1 else 0) + (if u =? (x - s) mod p + p then 1 else 0))).
  - rewrite sum_add, !sum_one. rewrite Z2Nat.id by lia.
    destruct (Z.leb_spec 0 ((x - s) mod p)), (Z.ltb_spec ((x - s) mod p) q), (Z.leb_spec 0 ((x - s) mod p + p)),
      (Z.ltb_spec ((x - s) mod p + p) q), (Z.ltb_spec ((x - s) mod p) (q - p)); cbn; lia.
  - intros u Hu. rewrite hit_iff by lia.
    destruct (Z.eqb_spec u ((x - s) mod p)), (Z.eqb_spec u ((x - s) mod p + p)); cbn; lia.
Qed.

(** a share value that tells two entries apart *)
Lemma apart x y : 0 <= x < p -> 0 <= y < p -> x <> y -> 0 < q - p -> 2 * (q - p) <= p ->
  exists s, 0 <= s < p /\ (x - s) mod p < q - p /\ q - p <= (y - s) mod p.
Proof.
  intros Hx Hy N M1 M2. set (d := (y - x) mod p).
  assert (Dm := Z.div_mod (y - x) p ltac:(lia)). fold d in Dm.
  assert (Dr : 0 <= d < p) by (apply Z.mod_pos_bound; lia).
  assert (Dn : d <> 0).
  { intros E. rewrite E in Dm. assert (y - x = 0); [|lia].
    assert ((y - x) / p = 0); [|nia]. assert (-p < p * ((y - x) / p) < p) by lia. nia. }
  assert (K : forall e, 0 <= e < p -> exists s, 0 <= s < p /\ (x - s) mod p = e /\ (y - s) mod p = (e + d) mod p).
  { intros e He. exists ((x - e) mod p). split; [apply Z.mod_pos_bound; lia|]. split.
    - rewrite Zminus_mod_idemp_r. replace (x - (x - e)) with e by lia. apply Z.mod_small. lia.
    - rewrite Zminus_mod_idemp_r. unfold d. rewrite Zplus_mod_idemp_r. f_equal. lia. }
  destruct (Z.le_gt_cases (q - p) d) as [L|L].
  - destruct (K 0 ltac:(lia)) as [s [S1 [S2 S3]]]. exists s. rewrite S2, S3. rewrite Z.add_0_l, Z.mod_small by lia. lia.
  - destruct (K (q - p - 1) ltac:(lia)) as [s [S1 [S2 S3]]]. exists s. rewrite S2, S3. rewrite Z.mod_small by lia. lia.
Qed.
End S.

Lemma doubled_pos : 0 < doubled. Proof. reflexivity. Qed.
Lemma draws_P : P <= draws < 2 * P. Proof. split; [discriminate | reflexivity]. Qed.
Lemma doubled_def : draws - P = doubled. Proof. reflexivity. Qed.
Lemma doubled_half : 2 * doubled <= P. Proof. discriminate. Qed.
Lemma draws_pos : 0 < draws. Proof. reflexivity. Qed.
Lemma ndraws_Z : Z.of_nat ndraws = draws. Proof. apply Z2Nat.id. discriminate. Qed.
Lemma sum_hide x y f B : (forall i, 0 <= i < P -> 0 <= f i <= B) ->
  Z.abs (sum_upto ndraws (fun u => f ((x - u) mod P)) - sum_upto ndraws (fun u => f ((y - u) mod P))) <= doubled * B.
Proof. exact (sum_draws P draws P_pos draws_P x y f B). Qed.
Lemma sum_hits x s : 0 <= s < P ->
  sum_upto ndraws (fun u => if (x - u) mod P =? s then 1 else 0) = if (x - s) mod P <? doubled then 2 else 1.
Proof. exact (hits P draws P_pos draws_P x s). Qed.
Opaque draws doubled P ndraws.

Lemma tally_range k T : 0 <= tally k T <= draws ^ Z.of_nat k.
Proof.
  revert T. induction k; intros T; cbn [tally].
  - destruct (T []); cbn; lia.
  - assert (H := sum_range ndraws (fun u => tally k (fun us => T (u :: us))) (draws ^ Z.of_nat k)
      (fun i _ => IHk (fun us => T (i :: us)))).
    rewrite ndraws_Z in H.
    rewrite Nat2Z.inj_succ, Z.pow_succ_r by lia. exact H.
Qed.

Lemma tally_ext k T T' : (forall us, length us = k -> Forall (fun u => 0 <= u < draws) us -> T us = T' us) -> tally k T = tally k T'.
Proof.
  revert T T'. induction k; intros T T' H; cbn [tally].
  - rewrite H; auto.
  - apply sum_ext. intros u Hu. apply IHk. intros us L F. apply H; [cbn; congruence|]. constructor; [|exact F].
    rewrite ndraws_Z in Hu. exact Hu.
Qed.

Lemma hybrid n F G A B C D1 D2 D : (forall u, F u = A u) -> (forall u, G u = C u) -> Z.abs (sum_upto n A - sum_upto n B) <= D1 ->
  (forall u, Z.abs (B u - C u) <= D2) -> D1 + Z.of_nat n * D2 <= D -> Z.abs (sum_upto n F - sum_upto n G) <= D.
Proof.
  intros HF HG HA HB HD. rewrite (sum_ext n F A), (sum_ext n G C) by auto.
  assert (K := sum_diff n B C D2 (fun i _ => HB i)). lia.
Qed.

(** the tally of a test on the second share *)
Lemma tally_hide proof : forall proof' (T : list fld -> bool), length proof = length proof' ->
  Z.abs (tally (length proof) (fun us => T (share1 proof us)) - tally (length proof) (fun us => T (share1 proof' us)))
  <= Z.of_nat (length proof) * doubled * draws ^ (Z.of_nat (length proof) - 1).
Proof.
  induction proof as [|x xs IH]; intros [|y ys] T L; cbn [length] in L; try discriminate L.
  - cbn [length tally share1]. lia.
  - injection L as L. cbn [length tally share1].
    set (k := length xs) in *.
    set (g := fun (zs : list fld) (v : Z) => tally k (fun us => T (of_Z v :: share1 zs us))).
    assert (G : forall zs z u, tally k (fun us => T (of_Z (fval z - u) :: share1 zs us)) = g zs ((fval z - u) mod P)).
    { intros zs z u. unfold g. apply tally_ext. intros us _ _. f_equal. f_equal. apply f_ext. rewrite !fval_of_Z. rewrite Z.mod_mod; [reflexivity|]. assert (D := P_pos). lia. }
    replace (Z.of_nat (S k) - 1) with (Z.of_nat k) by lia.
    apply (hybrid ndraws _ _ (fun u => g xs ((fval x - u) mod P)) (fun u => g xs ((fval y - u) mod P)) (fun u => g ys ((fval y - u) mod P))
      (doubled * draws ^ Z.of_nat k) (Z.of_nat k * doubled * draws ^ (Z.of_nat k - 1))).
    + intros u. apply G.
    + intros u. apply G.
    + apply (sum_hide (fval x) (fval y) (g xs)). intros i _. apply tally_range.
    + intros u. unfold g. apply (IH ys (fun s => T (of_Z ((fval y - u) mod P) :: s)) L).
    + rewrite ndraws_Z.
      assert (C : draws * (Z.of_nat k * doubled * draws ^ (Z.of_nat k - 1)) = Z.of_nat k * doubled * draws ^ Z.of_nat k).
      { destruct k as [|k']; [cbn; lia|]. replace (Z.of_nat (S k') - 1) with (Z.of_nat k') by lia.
        rewrite Nat2Z.inj_succ, Z.pow_succ_r by lia. ring. }
      rewrite C, Nat2Z.inj_succ. apply Z.eq_le_incl. ring.
Qed.

Lemma tally_false k : tally k (fun _ => false) = 0.
Proof.
  induction k; cbn [tally]; [reflexivity|]. rewrite (sum_ext _ _ (fun _ => 0 * 0)) by (intros; rewrite IHk; lia). rewrite sum_scale. lia.
Qed.

(** entries of the proof whose share is hit by two draws *)
Fixpoint twice (proof s : list fld) : nat :=
  match proof, s with x :: p', y :: s' => ((if ((fval x - fval y) mod P <? doubled)%Z then 1 else 0) + twice p' s')%nat | _, _ => 0%nat end.

Lemma tally_same proof : forall s, length proof = length s ->
  tally (length proof) (fun us => same (share1 proof us) s) = 2 ^ Z.of_nat (twice proof s).
Proof.
  induction proof as [|x xs IH]; intros [|y s] L; cbn [length] in L; try discriminate L; [reflexivity|].
  injection L as L. cbn [length tally share1 same twice].
  rewrite (sum_ext _ _ (fun u => 2 ^ Z.of_nat (twice xs s) * (if (fval x - u) mod P =? fval y then 1 else 0))).
  - rewrite sum_scale. rewrite sum_hits by apply fval_range.
    destruct (_ <? doubled); cbn [Nat.add]; [rewrite Nat2Z.inj_succ, Z.pow_succ_r by lia | ]; lia.
  - intros u _. unfold feqb. rewrite !fval_of_Z. destruct (_ =? _); cbn [andb].
    + rewrite IH by exact L. lia.
    + rewrite tally_false. lia.
Qed.

Lemma twice_apart a : forall b, length a = length b -> exists s, length s = length a /\ twice a s = length a /\ (twice b s + differ a b = length a)%nat.
Proof.
  induction a as [|x a IH]; intros [|y b] L; cbn [length] in L; try discriminate L; [exists []; auto|].
  injection L as L. destruct (IH b L) as [s [S1 [S2 S3]]].
  cbn [differ]. destruct (feqb x y) eqn:E.
  - apply feqb_eq in E. subst y. exists (x :: s). cbn [length twice]. rewrite Z.sub_diag, Z.mod_0_l by (assert (D := P_pos); lia).
    assert (D : (0 <? doubled) = true) by (apply Z.ltb_lt, doubled_pos). rewrite D. lia.
  - destruct (apart P draws P_pos draws_P (fval x) (fval y) (fval_range x) (fval_range y)) as [v [V1 [V2 V3]]].
    { intros C. apply f_ext in C. subst y. assert (feqb x x = true) by (apply feqb_eq; reflexivity). congruence. }
    { rewrite doubled_def. apply doubled_pos. }
    { rewrite doubled_def. apply doubled_half. }
    rewrite doubled_def in V2, V3.
    exists (of_Z v :: s). cbn [length twice]. rewrite !fval_of_Z. rewrite (Z.mod_small v) by exact V1.
    apply Z.ltb_lt in V2. apply Z.ltb_ge in V3. rewrite V2, V3. lia.
Qed.

Lemma C60_perfect_lemma a b : length a = length b ->
  exists s, length s = length a /\ tally (length a) (fun us => same (share1 a us) s) = 2 ^ Z.of_nat (length a) /\
            tally (length a) (fun us => same (share1 b us) s) * 2 ^ Z.of_nat (differ a b) = 2 ^ Z.of_nat (length a).
Proof.
  intros L. destruct (twice_apart a b L) as [s [S1 [S2 S3]]]. exists s. split; [exact S1|]. split.
  - rewrite tally_same by congruence. congruence.
  - rewrite L at 1. rewrite tally_same by congruence. rewrite <- Z.pow_add_r by lia. f_equal. lia.
Qed.

Lemma C60_possible_lemma proof s : length proof = length s ->
  1 <= tally (length proof) (fun us => same (share1 proof us) s) <= 2 ^ Z.of_nat (length proof).
Proof.
  intros L. rewrite tally_same by exact L.
  assert (T : (twice proof s <= length proof)%nat).
  { clear. revert s. induction proof as [|x p IH]; intros [|y s]; cbn [twice length]; try lia. specialize (IH s). destruct (_ <? _); lia. }
  split; [assert (0 < 2 ^ Z.of_nat (twice proof s)) by (apply Z.pow_pos_nonneg; lia); lia | apply Z.pow_le_mono_r; lia].
Qed.

Lemma zip_share1 proof : forall us, length proof = length us -> zip_sub proof (share0 us) = share1 proof us.
Proof.
  induction proof as [|x p IH]; intros [|u us] L; cbn [length] in L; try discriminate L; [reflexivity|].
  cbn [share0 zip_sub share1]. rewrite IH by congruence. f_equal. apply f_ext. unfold fsub. rewrite !fval_of_Z. rewrite Zminus_mod_idemp_r. reflexivity.
Qed.
Lemma map_share0 us : map (fun i => of_Z (nth i us 0)) (seq 0 (length us)) = share0 us.
Proof.
  induction us as [|u us IH]; [reflexivity|]. cbn [length seq map share0 nth]. f_equal. rewrite <- seq_shift, map_map. exact IH.
Qed.

(** what gen_report makes of the draws *)
Lemma C60_report_lemma E len cl us nonce keys p0 p1 jr alpha : gen_report E len (drawing us cl) = Ret (PRMastic nonce keys (p0, p1) jr alpha) ->
  length us = length p0 ->
  exists proof, length proof = length us /\ (exists beta rand, flp_prove E len beta (cl_prove_rand cl) rand = Some proof) /\ p0 = share0 us /\ p1 = share1 proof us /\
    forall us', length us' = length us -> gen_report E len (drawing us' cl) = Ret (PRMastic nonce keys (share0 us', share1 proof us') jr alpha).
Proof.
  intros H L. unfold gen_report in *. cbn [drawing cl_bucket cl_seed0 cl_seed1 cl_alpha cl_nonce cl_prove_rand cl_proof_rand] in *.
  destruct (unwrap (encode_measurement len (cl_bucket cl))) as [beta|]; [|discriminate H]. cbn [bind] in *.
  destruct (gen E (cl_seed0 cl) (cl_seed1 cl) (cl_alpha cl) beta) as [[k0 k1]|]; [|discriminate H]. cbn [bind] in *.
  destruct (flp_prove E len beta (cl_prove_rand cl) _) as [proof|] eqn:F; [|discriminate H]. cbn [bind unwrap] in *.
  injection H as <- <- <- <- <- <-.
  rewrite map_length, seq_length in L. exists proof. split; [congruence|]. split; [eauto|].
  rewrite <- L, map_share0. split; [reflexivity|]. split; [apply zip_share1; congruence|].
  intros us' L'. rewrite <- L', map_share0. rewrite zip_share1 by congruence. reflexivity.
Qed.

Lemma C60_hiding_lemma nonce k0 k1 jr alpha proof proof' (T : report_share -> bool) : length proof = length proof' ->
  let view pr us := to_shares (PRMastic nonce (k0, k1) (share0 us, share1 pr us) jr alpha) in
  tally (length proof) (fun us => T (fst (view proof us))) = tally (length proof) (fun us => T (fst (view proof' us))) /\
  Z.abs (tally (length proof) (fun us => T (snd (view proof us))) - tally (length proof) (fun us => T (snd (view proof' us))))
    <= Z.of_nat (length proof) * doubled * draws ^ (Z.of_nat (length proof) - 1).
Proof.
  intros L view. split; [reflexivity|]. exact (tally_hide proof proof' (fun s => T (RSMastic nonce k1 s jr)) L).
Qed.
Lemma C60_small_lemma : 2 ^ 59 * doubled < draws.
Proof. Transparent draws doubled P. reflexivity. Qed.
