(** Proofs about binary64 products and square roots. *)
From Coq Require Import ZArith Lia Bool.
From Coq Require Import Floats.SpecFloat.
From Verif Require Import Threshold.
Local Open Scope Z_scope.

Lemma pow2_pos : forall k, 0 <= k -> 0 < 2 ^ k.
Proof. intros; apply Z.pow_pos_nonneg; lia. Qed.

Lemma digits_bounds : forall p, 2 ^ (Zpos (digits2_pos p) - 1) <= Zpos p < 2 ^ Zpos (digits2_pos p).
Proof.
  induction p; cbn [digits2_pos].
  - rewrite Pos2Z.inj_succ. replace (Z.succ (Z.pos (digits2_pos p)) - 1) with (Z.succ (Z.pos (digits2_pos p) - 1)) by lia.
    rewrite !Z.pow_succ_r by lia. lia.
  - rewrite Pos2Z.inj_succ. replace (Z.succ (Z.pos (digits2_pos p)) - 1) with (Z.succ (Z.pos (digits2_pos p) - 1)) by lia.
    rewrite !Z.pow_succ_r by lia. lia.
  - cbn. lia.
Qed.
Lemma Zdigits_bounds : forall m, 0 < m -> 2 ^ (Zdigits2 m - 1) <= m < 2 ^ Zdigits2 m /\ 1 <= Zdigits2 m.
Proof. intros [|p|p] H; try lia. cbn [Zdigits2]. split; [apply digits_bounds|lia]. Qed.
Lemma Zdigits_le : forall m d, 0 <= m -> 0 <= d -> m < 2 ^ d -> Zdigits2 m <= d.
Proof.
  intros m d Hm Hd H. destruct (Z.eq_dec m 0) as [->|Hn]; [cbn; lia|].
  destruct (Zdigits_bounds m ltac:(lia)) as [[A B] C].
  destruct (Z_lt_le_dec d (Zdigits2 m)); [|lia].
  assert (2 ^ d <= 2 ^ (Zdigits2 m - 1)) by (apply Z.pow_le_mono_r; lia). lia.
Qed.
Lemma Zdigits_eq : forall m d, 1 <= d -> 2 ^ (d - 1) <= m < 2 ^ d -> Zdigits2 m = d.
Proof.
  intros m d Hd [A B]. assert (0 < 2 ^ (d - 1)) by (apply pow2_pos; lia).
  assert (Zdigits2 m <= d) by (apply Zdigits_le; lia).
  destruct (Zdigits_bounds m ltac:(lia)) as [[C D] F].
  destruct (Z_lt_le_dec (Zdigits2 m) d); [|lia].
  assert (2 ^ Zdigits2 m <= 2 ^ (d - 1)) by (apply Z.pow_le_mono_r; lia). lia.
Qed.

(** *** shifting right with the rounding bits *)
Definition shifted (M k : Z) (x : shr_record) : Prop :=
  0 <= shr_m x /\ exists rem, 0 <= rem < 2 ^ k /\ M = shr_m x * 2 ^ k + rem /\ (rem = 0 -> shr_r x = false /\ shr_s x = false).

Lemma shr_1_ok : forall M k x, 0 <= k -> shifted M k x -> shifted M (k + 1) (shr_1 x).
Proof.
  intros M k [m r s] Hk (Hm & rem & Hr & HM & Hz). cbn [shr_m shr_r shr_s] in *.
  assert (P := pow2_pos k Hk). assert (E : 2 ^ (k + 1) = 2 * 2 ^ k) by (rewrite Z.pow_add_r by lia; lia).
  assert (G : forall m' b, 0 <= m' -> m = 2 * m' + Z.b2z b -> shifted M (k + 1) {| shr_m := m'; shr_r := b; shr_s := r || s |}).
  { intros m' b H1 H2. split; [exact H1|]. cbn [shr_m shr_r shr_s]. exists (Z.b2z b * 2 ^ k + rem). rewrite E.
    destruct b; cbn [Z.b2z] in *; (split; [lia|split; [subst M m; ring|]]).
    - intro; exfalso; lia.
    - intro. destruct Hz as [-> ->]; [lia|]. split; reflexivity. }
  destruct m as [|[p|p|]|p]; cbn [shr_1]; try (apply G; cbn [Z.b2z]; lia). lia.
Qed.

Lemma iter_ok : forall (I : Z -> shr_record -> Prop), (forall k x, 0 <= k -> I k x -> I (k + 1) (shr_1 x)) ->
  forall n k x, 0 <= k -> I k x -> I (k + Zpos n) (iter_pos shr_1 n x).
Proof.
  intros I Hf. induction n; intros k x Hk H; cbn [iter_pos].
  - replace (k + Z.pos n~1) with (k + 1 + Zpos n + Zpos n) by lia. apply IHn; [lia|]. apply IHn; [lia|]. apply Hf; assumption.
  - replace (k + Z.pos n~0) with (k + Zpos n + Zpos n) by lia. apply IHn; [lia|]. apply IHn; assumption.
  - apply Hf; assumption.
Qed.

Lemma shr_fexp_ok : forall M e, 0 <= M ->
  let k := Z.max 0 (fexp 53 1024 (Zdigits2 M + e) - e) in
  exists x, shr_fexp 53 1024 M e loc_Exact = (x, e + k) /\ shifted M k x.
Proof.
  intros M e HM k. unfold shr_fexp, shr. cbn [shr_record_of_loc].
  assert (H0 : shifted M 0 {| shr_m := M; shr_r := false; shr_s := false |}).
  { split; [exact HM|]. exists 0. cbn. repeat split; lia. }
  subst k. destruct (fexp 53 1024 (Zdigits2 M + e) - e) as [|p|p] eqn:F.
  - eexists. split; [rewrite Z.add_0_r; reflexivity|exact H0].
  - eexists. split; [reflexivity|]. rewrite Z.max_r by lia. apply (iter_ok (shifted M)) with (k := 0); [apply shr_1_ok|lia|exact H0].
  - eexists. split; [rewrite Z.max_l by lia; rewrite Z.add_0_r; reflexivity|exact H0].
Qed.

Lemma nearest_cases : forall x, 0 <= shr_m x ->
  shr_m x <= round_nearest_even (shr_m x) (loc_of_shr_record x) <= shr_m x + 1 /\
  (shr_r x = false -> shr_s x = false -> round_nearest_even (shr_m x) (loc_of_shr_record x) = shr_m x).
Proof.
  intros [m r s] H. cbn [shr_m shr_r shr_s] in *. destruct r, s; cbn; try (split; [lia|congruence]); try (split; [lia|lia]).
  destruct (Z.even m); (split; [lia|congruence]).
Qed.

(** the number a rounded result stands for *)
Definition stands_for (x : spec_float) (m e : Z) : Prop :=
  (m = 0 /\ x = S754_zero false) \/ (exists p, m = Zpos p /\ x = S754_finite false p e).

Lemma fexp_le : forall d b, d - 53 <= b -> -1074 <= b -> fexp 53 1024 d <= b.
Proof. intros. unfold fexp, emin. apply Z.max_lub; lia. Qed.

(** every multiple of 1/2 is representable below 2^51, so rounding does not cross it *)
Lemma round_ok : forall M e, 0 < M -> e <= -1 -> M < 2 ^ 51 * 2 ^ (- e) ->
  exists m e', stands_for (binary_round_aux 53 1024 false M e loc_Exact) m e' /\ 0 <= m /\ e' <= -1 /\
    (forall g, g * 2 ^ (- e) <= 2 * M -> g * 2 ^ (- e') <= 2 * m) /\
    (forall g, 2 * M <= g * 2 ^ (- e) -> 2 * m <= g * 2 ^ (- e')).
Proof.
  intros M e HM He HB. unfold binary_round_aux.
  destruct (shr_fexp_ok M e ltac:(lia)) as (x & Ex & Hx). rewrite Ex. clear Ex.
  assert (Hd : Zdigits2 M <= 51 - e).
  { apply Zdigits_le; try lia. replace (51 - e) with (51 + - e) by lia. rewrite Z.pow_add_r by lia. exact HB. }
  set (k := Z.max 0 (fexp 53 1024 (Zdigits2 M + e) - e)) in *.
  assert (Hk : 0 <= k) by lia.
  assert (Hek : e + k <= -1).
  { assert (fexp 53 1024 (Zdigits2 M + e) <= -2) by (apply fexp_le; lia). lia. }
  destruct Hx as (Hm0 & rem & Hrem & HMx & Hz). destruct (nearest_cases x Hm0) as [Hn1 Hn2].
  set (m1 := round_nearest_even (shr_m x) (loc_of_shr_record x)) in *. clearbody m1.
  assert (Pe : 2 ^ (- e) = 2 ^ k * 2 ^ (- (e + k))) by (rewrite <- Z.pow_add_r by lia; f_equal; lia).
  assert (Pk := pow2_pos k Hk).
  (* the first rounding *)
  assert (Lo : forall g, g * 2 ^ (- e) <= 2 * M -> g * 2 ^ (- (e + k)) <= 2 * m1).
  { intros g Hg. rewrite Pe in Hg.
    replace (- (e + k)) with (1 + (- (e + k) - 1)) in * by lia. rewrite Z.pow_add_r in * by lia.
    change (2 ^ 1) with 2 in *. set (G := 2 ^ (- (e + k) - 1)) in *.
    assert (g * G <= shr_m x); [|nia].
    assert (g * G * 2 ^ k <= shr_m x * 2 ^ k + rem) by nia. nia. }
  assert (Up : forall g, 2 * M <= g * 2 ^ (- e) -> 2 * m1 <= g * 2 ^ (- (e + k))).
  { intros g Hg. rewrite Pe in Hg.
    replace (- (e + k)) with (1 + (- (e + k) - 1)) in * by lia. rewrite Z.pow_add_r in * by lia.
    change (2 ^ 1) with 2 in *. set (G := 2 ^ (- (e + k) - 1)) in *.
    assert (m1 <= g * G); [|nia].
    assert (shr_m x * 2 ^ k + rem <= g * G * 2 ^ k) by nia.
    destruct (Z.eq_dec rem 0) as [R|R].
    - destruct (Hz R) as [A B]. rewrite (Hn2 A B). nia.
    - assert (shr_m x < g * G) by nia. lia. }
  assert (Hm1 : 0 <= m1) by lia.
  (* the second shift *)
  destruct (shr_fexp_ok m1 (e + k) Hm1) as (y & Ey & Hy). rewrite Ey. clear Ey.
  assert (Bm1 : m1 < 2 ^ (52 - (e + k))).
  { assert (A := Up (2 * 2 ^ 51) ltac:(lia)). replace (52 - (e + k)) with (52 + - (e + k)) by lia.
    assert (m1 * 2 ^ k <= M + 2 ^ k) by nia.
    rewrite Z.pow_add_r by lia. assert (Q := pow2_pos (- (e + k)) ltac:(lia)).
    replace (2 ^ 52) with (2 * 2 ^ 51) by reflexivity. rewrite Pe in HB.
    assert (0 < 2 ^ 51) by (apply pow2_pos; lia). nia. }
  assert (Hd1 : Zdigits2 m1 <= 52 - (e + k)) by (apply Zdigits_le; lia).
  set (k2 := Z.max 0 (fexp 53 1024 (Zdigits2 m1 + (e + k)) - (e + k))) in *.
  assert (Hk2 : 0 <= k2) by lia.
  assert (Hek2 : e + k + k2 <= -1).
  { assert (fexp 53 1024 (Zdigits2 m1 + (e + k)) <= -1) by (apply fexp_le; lia). lia. }
  destruct Hy as (Hy0 & rem2 & Hrem2 & HM2 & _).
  exists (shr_m y), (e + k + k2).
  assert (Pe2 : 2 ^ (- (e + k)) = 2 ^ k2 * 2 ^ (- (e + k + k2))) by (rewrite <- Z.pow_add_r by lia; f_equal; lia).
  assert (Pk2 := pow2_pos k2 Hk2). assert (Q := pow2_pos (- (e + k + k2)) ltac:(lia)).
  split; [|split; [exact Hy0|split; [exact Hek2|split]]].
  - destruct (shr_m y) as [|p|p] eqn:S; [left; split; reflexivity| |lia].
    right. exists p. split; [reflexivity|]. replace (e + k + k2 <=? 1024 - 53) with true by (symmetry; apply Z.leb_le; lia). reflexivity.
  - intros g Hg. apply Lo in Hg. rewrite Pe2 in Hg.
    replace (- (e + k + k2)) with (1 + (- (e + k + k2) - 1)) in * by lia. rewrite Z.pow_add_r in * by lia.
    change (2 ^ 1) with 2 in *. set (G := 2 ^ (- (e + k + k2) - 1)) in *.
    assert (g * G <= shr_m y); [|nia].
    assert (g * G * 2 ^ k2 <= shr_m y * 2 ^ k2 + rem2) by nia. nia.
  - intros g Hg. apply Up in Hg. rewrite Pe2 in Hg. set (G := 2 ^ (- (e + k + k2))) in *.
    assert (2 * shr_m y * 2 ^ k2 <= g * G * 2 ^ k2) by nia. nia.
Qed.

(** numbers below 2^53 are converted exactly *)
Lemma of_usize_ok : forall p, Zpos p < 2 ^ 53 ->
  exists m e, f64_of_usize (Zpos p) = S754_finite false m e /\ e <= 0 /\ Zpos m = Zpos p * 2 ^ (- e) /\ Zdigits2 (Zpos m) = 53 /\ e = Zdigits2 (Zpos p) - 53.
Proof.
  intros p Hp. unfold f64_of_usize, binary_normalize, binary_round.
  set (d := Zpos (digits2_pos p)). assert (Hd : d <= 53) by (apply (Zdigits_le (Zpos p)); lia).
  assert (Hd1 : 1 <= d) by lia. assert (Hb := digits_bounds p). fold d in Hb.
  assert (F : fexp 53 1024 (d + 0) = d - 53) by (unfold fexp, emin; lia). rewrite F. unfold shl_align. rewrite Z.sub_0_r.
  assert (N : forall m, Zpos m = Zpos p * 2 ^ (53 - d) -> binary_round_aux 53 1024 false (Zpos m) (d - 53) loc_Exact = S754_finite false m (d - 53) /\ Zdigits2 (Zpos m) = 53).
  { intros m Hm.
    assert (D : Zdigits2 (Zpos m) = 53).
    { apply Zdigits_eq; [lia|]. rewrite Hm. replace (53 - 1) with (d - 1 + (53 - d)) by lia. replace (2 ^ 53) with (2 ^ (d + (53 - d))) by (f_equal; lia).
      rewrite !Z.pow_add_r by lia. assert (Q := pow2_pos (53 - d) ltac:(lia)). nia. }
    split; [|exact D]. unfold binary_round_aux, shr_fexp. rewrite D.
    assert (F2 : fexp 53 1024 (53 + (d - 53)) - (d - 53) = 0) by (unfold fexp, emin; lia). rewrite F2.
    cbn [shr shr_record_of_loc shr_m loc_of_shr_record round_nearest_even]. rewrite D, F2. cbn [shr shr_record_of_loc shr_m].
    replace (d - 53 <=? 1024 - 53) with true by (symmetry; apply Z.leb_le; lia). reflexivity. }
  destruct (d - 53) as [|q|q] eqn:S; try lia.
  - destruct (N p) as [A B]; [replace (53 - d) with 0 by lia; lia|]. exists p, 0.
    split; [exact A|]. split; [lia|]. split; [cbn; lia|]. split; [exact B|]. cbn [Zdigits2]. fold d. lia.
  - assert (Zpos (shift_pos q p) = Zpos p * 2 ^ (53 - d)).
    { rewrite shift_pos_correct. rewrite Z.pow_pos_fold. replace (53 - d) with (Zpos q) by lia. rewrite Zpower_pos_is_exp || idtac. ring. }
    destruct (N _ H) as [A B]. exists (shift_pos q p), (Zneg q). split; [exact A|]. split; [lia|].
    split; [replace (- Z.neg q) with (53 - d) by lia; exact H|]. split; [exact B|]. cbn [Zdigits2]. fold d. lia.
Qed.

Lemma as_u64_ok : forall x m e, stands_for x m e -> e <= -1 -> 0 <= m -> m < 2 ^ 64 * 2 ^ (- e) -> f64_as_u64 x = m / 2 ^ (- e).
Proof.
  intros x m e H He Hm HB. assert (P := pow2_pos (- e) ltac:(lia)).
  destruct H as [[-> ->]|(p & -> & ->)]; cbn [f64_as_u64].
  - rewrite Z.div_0_l by lia. reflexivity.
  - replace (e <? 0) with true by (symmetry; apply Z.ltb_lt; lia). apply Z.min_r.
    assert (Zpos p / 2 ^ (- e) < 2 ^ 64); [|lia]. apply Z.div_lt_upper_bound; [lia|]. lia.
Qed.

(** the threshold does not cross an integer or half an integer *)
Lemma threshold_half : forall m k n, 1 <= k -> 0 <= n < 2 ^ 53 -> Zpos m * n < 2 ^ 51 * 2 ^ k ->
  exists a b, 0 <= a /\ 1 <= b /\ f64_threshold (S754_finite false m (- k)) n = a / 2 ^ b /\
    (forall g, g * 2 ^ k <= 2 * (Zpos m * n) -> g * 2 ^ b <= 2 * a) /\
    (forall g, 2 * (Zpos m * n) <= g * 2 ^ k -> 2 * a <= g * 2 ^ b).
Proof.
  intros m k n Hk [Hn0 Hn] HB. destruct n as [|p|p]; [| |lia].
  - exists 0, 1. rewrite Z.mul_0_r. assert (P := pow2_pos k ltac:(lia)).
    split; [lia|]. split; [lia|]. split; [reflexivity|]. split; intros g Hg; change (2 ^ 1) with 2; nia.
  - destruct (of_usize_ok p Hn) as (q & e & Eq & He & Hq & _ & _).
    unfold f64_threshold, f64_mul. rewrite Eq. cbn [SFmul xorb].
    rewrite Pos2Z.inj_mul.
    assert (P1 := pow2_pos (- e) ltac:(lia)).
    assert (Pk : 2 ^ (- (- k + e)) = 2 ^ k * 2 ^ (- e)) by (rewrite <- Z.pow_add_r by lia; f_equal; lia).
    destruct (round_ok (Zpos m * Zpos q) (- k + e)) as (a & e' & S & A & B & C & D); [lia|lia| |].
    { rewrite Pk, Hq. nia. }
    exists a, (- e'). split; [exact A|]. split; [lia|]. rewrite Pk, Hq in C, D. split; [|split].
    + apply as_u64_ok; [exact S|exact B|exact A|]. assert (X := D (2 * 2 ^ 51)). assert (P2 := pow2_pos (- e') ltac:(lia)).
      assert (2 * a <= 2 * 2 ^ 51 * 2 ^ (- e')) by (apply X; nia).
      assert (2 ^ 64 = 2 ^ 13 * 2 ^ 51) by reflexivity. nia.
    + intros g Hg. apply C. nia.
    + intros g Hg. apply D. nia.
Qed.

Lemma threshold_bounds : forall m k n c, 1 <= k -> 0 <= n < 2 ^ 53 -> Zpos m * n < 2 ^ 51 * 2 ^ k ->
  (Zpos m * n <= c * 2 ^ k -> f64_threshold (S754_finite false m (- k)) n <= c) /\
  (c * 2 ^ k <= Zpos m * n -> c <= f64_threshold (S754_finite false m (- k)) n).
Proof.
  intros m k n c Hk Hn HB. destruct (threshold_half m k n Hk Hn HB) as (a & b & Ha & Hb & -> & C & D).
  assert (P := pow2_pos b ltac:(lia)). split; intro H.
  - assert (X := D (2 * c) ltac:(lia)). apply Z.div_le_upper_bound; lia.
  - assert (X := C (2 * c) ltac:(lia)). apply Z.div_le_lower_bound; lia.
Qed.

Lemma threshold_down : forall m k n c, 1 <= k -> 0 <= n < 2 ^ 53 -> Zpos m * n < 2 ^ 51 * 2 ^ k ->
  c * 2 ^ k <= Zpos m * n -> 2 * (Zpos m * n) <= (2 * c + 1) * 2 ^ k -> f64_threshold (S754_finite false m (- k)) n = c.
Proof.
  intros m k n c Hk Hn HB H1 H2. destruct (threshold_half m k n Hk Hn HB) as (a & b & Ha & Hb & -> & C & D).
  assert (P := pow2_pos b ltac:(lia)).
  assert (X := C (2 * c) ltac:(lia)). assert (Y := D _ H2). symmetry. apply Z.div_unique with (a - c * 2 ^ b); lia.
Qed.

(** NaN, infinities, zeros and negative numbers *)
Lemma threshold_rest : forall t n, 1 <= n < 2 ^ 53 ->
  match t with S754_finite false _ _ => True | S754_infinity false => f64_threshold t n = 2 ^ 64 - 1 | _ => f64_threshold t n = 0 end.
Proof.
  intros t n [H1 H2]. destruct n as [|p|p]; try lia. destruct (of_usize_ok p H2) as (q & e & Eq & _).
  unfold f64_threshold, f64_mul. rewrite Eq. destruct t as [s|s| |s m k]; try destruct s; try exact I; try reflexivity.
  cbn [SFmul xorb]. unfold binary_round_aux. destruct (shr_fexp _ _ _ _ _) as [x e1]. destruct (shr_fexp _ _ _ _ _) as [y e2].
  destruct (shr_m y); try reflexivity. destruct (e2 <=? 1024 - 53); reflexivity.
Qed.

(** *** the square root *)
Lemma sqrt_scaled : forall n K, 0 <= n -> 0 <= K -> Z.sqrt (n * 2 ^ (2 * K)) / 2 ^ K = Z.sqrt n.
Proof.
  intros n K Hn HK. assert (P := pow2_pos K HK). set (s := Z.sqrt n).
  assert (Hs := Z.sqrt_spec n Hn). cbv zeta in Hs. fold s in Hs. assert (0 <= s) by apply Z.sqrt_nonneg.
  replace (2 * K) with (K + K) by lia. rewrite Z.pow_add_r by lia. set (G := 2 ^ K) in *.
  set (q := Z.sqrt (n * (G * G))). assert (Hq := Z.sqrt_spec (n * (G * G)) ltac:(nia)). cbv zeta in Hq. fold q in Hq.
  assert (0 <= q) by apply Z.sqrt_nonneg.
  symmetry.
  assert (s * G <= q).
  { destruct (Z_lt_le_dec q (s * G)) as [L|L]; [exfalso|lia].
    assert (Z.succ q * Z.succ q <= (s * G) * (s * G)) by (apply Z.mul_le_mono_nonneg; lia).
    assert (s * s * (G * G) <= n * (G * G)) by (apply Z.mul_le_mono_nonneg_r; [apply Z.mul_nonneg_nonneg; lia|lia]).
    replace (s * G * (s * G)) with (s * s * (G * G)) in * by ring. lia. }
  assert (q < Z.succ s * G).
  { destruct (Z_lt_le_dec q (Z.succ s * G)) as [L|L]; [lia|exfalso].
    assert ((Z.succ s * G) * (Z.succ s * G) <= q * q) by (apply Z.mul_le_mono_nonneg; try lia; apply Z.mul_nonneg_nonneg; lia).
    assert (n * (G * G) < Z.succ s * Z.succ s * (G * G)) by (apply Z.mul_lt_mono_pos_r; [apply Z.mul_pos_pos; lia|lia]).
    replace (Z.succ s * G * (Z.succ s * G)) with (Z.succ s * Z.succ s * (G * G)) in * by ring. lia. }
  apply Z.div_unique with (q - s * G); nia.
Qed.

(** small arithmetic facts, kept apart so that nia sees few hypotheses *)
Lemma no_carry : forall n s G q, 0 <= s -> 0 < G -> n < (s + 1) * (s + 1) -> q + 1 = (s + 1) * G -> q * q + q < n * (G * G) -> G < s + 1.
Proof.
  intros n s G q Hs HG Hn Hq H. replace q with ((s + 1) * G - 1) in H by lia.
  assert (A : n * (G * G) <= ((s + 1) * (s + 1) - 1) * (G * G)).
  { apply Z.mul_le_mono_nonneg_r; [apply Z.mul_nonneg_nonneg; lia|lia]. }
  assert (B : G * G < (s + 1) * G).
  { replace (((s + 1) * G - 1) * ((s + 1) * G - 1) + ((s + 1) * G - 1)) with ((s + 1) * (s + 1) * (G * G) - (s + 1) * G) in H by ring.
    replace (((s + 1) * (s + 1) - 1) * (G * G)) with ((s + 1) * (s + 1) * (G * G) - G * G) in A by ring. lia. }
  apply (Z.mul_lt_mono_pos_r G); assumption.
Qed.
Lemma quotient_le : forall y K rem m, 0 <= y -> 0 < K -> 0 <= rem -> m = y * K + rem -> y <= m.
Proof. intros. nia. Qed.
Lemma quotient_pos : forall y rem m K, K <= 2 -> 0 < K -> 0 <= rem < K -> m = y * K + rem -> 2 <= m -> 0 < y.
Proof. intros. nia. Qed.
Lemma square_ge : forall a q r, 0 <= a -> 0 <= q -> a * a <= q * q + r -> r <= 2 * q -> a <= q.
Proof. intros. nia. Qed.
Lemma square_lt : forall a q r, 0 < a -> 0 <= q -> q * q + r < a * a -> 0 <= r -> q < a.
Proof. intros. nia. Qed.

Lemma plain_chunk_ok : forall n, 0 <= n < 2 ^ 52 -> plain_chunk_length n = Z.sqrt n.
Proof.
  intros n [H0 H52]. destruct n as [|p|p]; [reflexivity| |lia].
  assert (Hp53 : Zpos p < 2 ^ 53) by (assert (2 ^ 53 = 2 * 2 ^ 52) by reflexivity; lia).
  destruct (of_usize_ok p Hp53) as (m & e & Eq & He & Hm & Dm & Ee).
  unfold plain_chunk_length, f64_sqrt. rewrite Eq. cbn [SFsqrt]. unfold SFsqrt_core_binary. rewrite Dm.
  set (d := Zdigits2 (Zpos p)) in *.
  destruct (Zdigits_bounds (Zpos p) ltac:(lia)) as [Hb Hd1]. fold d in Hb, Hd1.
  assert (Hd : d <= 52) by (apply Zdigits_le; lia).
  replace (53 + e + 1) with (d + 1) by lia. rewrite !Z.div2_div.
  assert (Z1 := Z.div_mod (d + 1) 2 ltac:(lia)). assert (Z2 := Z.mod_pos_bound (d + 1) 2 ltac:(lia)).
  assert (Z3 := Z.div_mod e 2 ltac:(lia)). assert (Z4 := Z.mod_pos_bound e 2 ltac:(lia)).
  set (h := (d + 1) / 2) in *. set (h2 := e / 2) in *.
  assert (F : fexp 53 1024 h = h - 53) by (unfold fexp, emin; lia). rewrite F.
  rewrite Z.min_l by lia. set (K := 53 - h). replace (h - 53) with (- K) by lia.
  assert (HK : 27 <= K) by lia.
  assert (Es : e - 2 * - K = e + 2 * K) by lia. rewrite Es.
  assert (Hs : 0 < e + 2 * K) by lia. destruct (e + 2 * K) as [|sh|sh] eqn:S; try lia.
  rewrite Z.shiftl_mul_pow2 by lia. rewrite <- S. clear Es Hs S sh.
  assert (Em : Zpos m * 2 ^ (e + 2 * K) = Zpos p * 2 ^ (2 * K)) by (rewrite Hm, <- Z.mul_assoc, <- Z.pow_add_r by lia; do 2 f_equal; lia).
  rewrite Em. set (M := Zpos p * 2 ^ (2 * K)).
  assert (Sq := Z.sqrtrem_sqrt M). assert (Sp := Z.sqrtrem_spec M ltac:(subst M; assert (0 < 2 ^ (2 * K)) by (apply pow2_pos; lia); nia)).
  destruct (Z.sqrtrem M) as [q r]. cbn [fst] in Sq. destruct Sp as [HMq Hr].
  assert (Sc := sqrt_scaled (Zpos p) K ltac:(lia) ltac:(lia)). fold M in Sc. rewrite <- Sq in Sc.
  set (s := Z.sqrt (Zpos p)) in *.
  assert (Hss := Z.sqrt_spec (Zpos p) ltac:(lia)). cbv zeta in Hss. fold s in Hss. assert (Hs0 : 0 <= s) by apply Z.sqrt_nonneg.
  assert (PK := pow2_pos K ltac:(lia)).
  assert (E2K : 2 ^ (2 * K) = 2 ^ K * 2 ^ K) by (rewrite <- Z.pow_add_r by lia; f_equal; lia).
  assert (Ls : s < 2 ^ 26).
  { assert (2 ^ 52 = 2 ^ 26 * 2 ^ 26) by reflexivity. assert (0 < 2 ^ 26) by reflexivity. nia. }
  assert (L27 : 2 ^ 27 <= 2 ^ K) by (apply Z.pow_le_mono_r; lia).
  (* q has 53 digits *)
  assert (Hq0 : 0 <= q) by (rewrite Sq; apply Z.sqrt_nonneg).
  assert (MB : 2 ^ 52 * 2 ^ 52 <= M < 2 ^ 53 * 2 ^ 53).
  { subst M. rewrite <- !Z.pow_add_r by lia. split.
    - apply Z.le_trans with (2 ^ (d - 1) * 2 ^ (2 * K)); [|assert (0 < 2 ^ (2 * K)) by (apply pow2_pos; lia); nia].
      rewrite <- Z.pow_add_r by lia. apply Z.pow_le_mono_r; lia.
    - apply Z.lt_le_trans with (2 ^ d * 2 ^ (2 * K)); [assert (0 < 2 ^ (2 * K)) by (apply pow2_pos; lia); nia|].
      rewrite <- Z.pow_add_r by lia. apply Z.pow_le_mono_r; lia. }
  assert (P52 := pow2_pos 52 ltac:(lia)). assert (P53 := pow2_pos 53 ltac:(lia)).
  assert (Q52 : 2 ^ 52 <= q) by (apply (square_ge _ q r); lia).
  assert (Q53 : q < 2 ^ 53) by (apply (square_lt _ q r); lia).
  assert (Qd : Zdigits2 q = 53) by (apply Zdigits_eq; [lia|]; change (53 - 1) with 52; split; assumption).
  unfold binary_round_aux. unfold shr_fexp at 1. rewrite Qd.
  assert (F2 : fexp 53 1024 (53 + - K) - - K = 0) by (unfold fexp, emin; lia). rewrite F2. cbn [shr].
  set (l := if Zeq_bool r 0 then loc_Exact else loc_Inexact (if r <=? q then Lt else Gt)).
  assert (Rm : shr_m (shr_record_of_loc q l) = q) by (subst l; destruct (Zeq_bool r 0); [reflexivity|destruct (r <=? q); reflexivity]).
  assert (Rl : loc_of_shr_record (shr_record_of_loc q l) = l) by (subst l; destruct (Zeq_bool r 0); [reflexivity|destruct (r <=? q); reflexivity]).
  rewrite Rm, Rl. clear Rm Rl.
  set (m1 := round_nearest_even q l).
  (* rounding up never reaches the next integer *)
  assert (Hm1 : q <= m1 <= q + 1 /\ m1 / 2 ^ K = s).
  { assert (G : m1 = q \/ m1 = q + 1 /\ q < r).
    { subst m1 l. destruct (Zeq_bool r 0); [left; reflexivity|]. destruct (Z.leb_spec r q); [left; reflexivity|right; split; [reflexivity|lia]]. }
    destruct G as [->|[-> Hrq]]; (split; [lia|]); [exact Sc|].
    assert (Dq := Z.div_mod q (2 ^ K) ltac:(lia)). assert (Bq := Z.mod_pos_bound q (2 ^ K) ltac:(lia)). rewrite Sc in Dq.
    symmetry. apply Z.div_unique with (q + 1 - s * 2 ^ K); [|lia]. left.
    assert (q + 1 <> (s + 1) * 2 ^ K); [|lia]. intro Hc.
    assert (C : 2 ^ K < s + 1).
    { apply (no_carry (Zpos p) s (2 ^ K) q); rewrite <- ?E2K; lia. }
    assert (2 ^ 27 = 2 * 2 ^ 26) by reflexivity. lia. }
  destruct Hm1 as [Hm1 Hfl]. clearbody m1.
  destruct (shr_fexp_ok m1 (- K) ltac:(lia)) as (y & Ey & Hy0 & rem & Hrem & HMy & _). rewrite Ey.
  assert (Qd1 : Zdigits2 m1 <= 54) by (apply Zdigits_le; [lia|lia|]; assert (2 ^ 54 = 2 * 2 ^ 53) by reflexivity; lia).
  set (k2 := Z.max 0 (fexp 53 1024 (Zdigits2 m1 + - K) - - K)) in *.
  assert (Hk2 : 0 <= k2 <= 1).
  { assert (fexp 53 1024 (Zdigits2 m1 + - K) <= 1 - K) by (apply fexp_le; lia). lia. }
  assert (Pk2 := pow2_pos k2 ltac:(lia)).
  transitivity (shr_m y / 2 ^ (K - k2)).
  - assert (Py : 0 < shr_m y). { assert (2 ^ k2 <= 2 ^ 1) by (apply Z.pow_le_mono_r; lia). change (2 ^ 1) with 2 in *.
      assert (2 <= 2 ^ 52) by (apply Z.leb_le; reflexivity). apply (quotient_pos (shr_m y) rem m1 (2 ^ k2)); lia. }
    destruct (shr_m y) as [|pp|pp] eqn:Sy; try lia.
    replace (- K + k2 <=? 1024 - 53) with true by (symmetry; apply Z.leb_le; lia).
    rewrite (as_u64_ok _ (Zpos pp) (- K + k2)); [f_equal; f_equal; lia|right; exists pp; split; reflexivity|lia|lia|].
    assert (0 < 2 ^ (- (- K + k2))) by (apply pow2_pos; lia).
    assert (Zpos pp <= m1) by (apply (quotient_le _ (2 ^ k2) rem); lia). assert (2 ^ 53 < 2 ^ 64) by reflexivity.
    apply Z.lt_le_trans with (2 ^ 64 * 1); [lia|]. apply Z.mul_le_mono_nonneg_l; lia.
  - rewrite <- Hfl. replace (2 ^ K) with (2 ^ k2 * 2 ^ (K - k2)) by (rewrite <- Z.pow_add_r by lia; f_equal; lia).
    rewrite <- Z.div_div; [|lia|apply pow2_pos; lia]. f_equal. apply Z.div_unique with rem; lia.
Qed.
