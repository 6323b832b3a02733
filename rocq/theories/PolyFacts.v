(** Powers, finite sums, polynomials, roots of unity and interpolation over the field. *)
From Verif Require Import Base Field Util Env Histogram PrimeFacts.

(** *** powers *)
Lemma fpow_add x a b : fpow x (a + b) = fmul (fpow x a) (fpow x b).
Proof. induction a as [|a IH]; cbn [fpow Nat.add]; [ring|rewrite IH; ring]. Qed.
Lemma fpow_one n : fpow fone n = fone.
Proof. induction n as [|n IH]; cbn [fpow]; [reflexivity|rewrite IH; ring]. Qed.
Lemma fpow_mul x a b : fpow x (a * b) = fpow (fpow x a) b.
Proof. induction b as [|b IH]; [rewrite Nat.mul_0_r; reflexivity|]. rewrite Nat.mul_succ_r, fpow_add, IH. cbn [fpow]. ring. Qed.
Lemma fpow_prod x y n : fpow (fmul x y) n = fmul (fpow x n) (fpow y n).
Proof. induction n as [|n IH]; cbn [fpow]; [ring|rewrite IH; ring]. Qed.
Lemma squared_pow n : forall x, squared n x = fpow x (2 ^ n).
Proof.
  induction n as [|n IH]; intros x; cbn [squared Nat.pow]; [cbn [fpow]; ring|].
  rewrite IH, fpow_prod, <- fpow_add. f_equal. lia.
Qed.
Lemma fpow_pos_add_comm x n : fmul x (fpow_pos x n) = fpow_pos x (Pos.succ n).
Proof. induction n as [n IH|n IH|]; cbn [fpow_pos Pos.succ]; [|reflexivity|reflexivity]. rewrite <- IH. ring. Qed.
Lemma fpow_pos_prod x y n : fpow_pos (fmul x y) n = fmul (fpow_pos x n) (fpow_pos y n).
Proof. induction n as [n IH|n IH|]; cbn [fpow_pos]; [rewrite IH; ring|rewrite IH; ring|reflexivity]. Qed.
Lemma fpow_pos_one n : fpow_pos fone n = fone.
Proof. induction n as [n IH|n IH|]; cbn [fpow_pos]; [rewrite IH; ring|rewrite IH; ring|reflexivity]. Qed.
Lemma finv_prod x y : finv (fmul x y) = fmul (finv x) (finv y).
Proof. apply fpow_pos_prod. Qed.
Lemma finv_one : finv fone = fone.
Proof. apply fpow_pos_one. Qed.
Lemma finv_two : fmul (of_Z 2) (finv (of_Z 2)) = fone.
Proof. apply feqb_eq. vm_cast_no_check (eq_refl true). Qed.
Lemma of_nat_mul a b : of_nat (a * b) = fmul (of_nat a) (of_nat b).
Proof. unfold of_nat. rewrite Nat2Z.inj_mul. apply of_Z_mul. Qed.
Lemma of_nat_add a b : of_nat (a + b) = fadd (of_nat a) (of_nat b).
Proof. unfold of_nat. rewrite Nat2Z.inj_add. apply of_Z_add. Qed.
Lemma finv_pow2 l : fmul (of_nat (2 ^ l)) (finv (of_nat (2 ^ l))) = fone.
Proof.
  induction l as [|l IH]; [change (of_nat (2 ^ 0)) with fone; rewrite finv_one; ring|].
  cbn [Nat.pow]. rewrite of_nat_mul, finv_prod. change (of_nat 2) with (of_Z 2).
  transitivity (fmul (fmul (of_Z 2) (finv (of_Z 2))) (fmul (of_nat (2 ^ l)) (finv (of_nat (2 ^ l))))); [ring|]. rewrite finv_two, IH. ring.
Qed.
Lemma one_ne_zero : fone <> fzero.
Proof. intros H. apply (f_equal fval) in H. discriminate H. Qed.
Lemma fsub_zero a b : fsub a b = fzero -> a = b.
Proof. intros H. transitivity (fadd (fsub a b) b); [ring|rewrite H; ring]. Qed.
Lemma fpow_ne_zero x n : x <> fzero -> fpow x n <> fzero.
Proof. intros Hx. induction n as [|n IH]; cbn [fpow]; [exact one_ne_zero|]. intros H. destruct (f_integral _ _ H); contradiction. Qed.

(** *** sums *)
Fixpoint big (n : nat) (f : nat -> fld) : fld := match n with O => fzero | S n' => fadd (big n' f) (f n') end.
Lemma big_ext n f g : (forall i, i < n -> f i = g i) -> big n f = big n g.
Proof. induction n as [|n IH]; intros H; cbn [big]; [reflexivity|]. rewrite IH, (H n) by (intros; try apply H; lia). reflexivity. Qed.
Lemma big_zero n f : (forall i, i < n -> f i = fzero) -> big n f = fzero.
Proof. induction n as [|n IH]; intros H; cbn [big]; [reflexivity|]. rewrite IH, (H n) by (intros; try apply H; lia). ring. Qed.
Lemma big_add n f g : big n (fun i => fadd (f i) (g i)) = fadd (big n f) (big n g).
Proof. induction n as [|n IH]; cbn [big]; [ring|rewrite IH; ring]. Qed.
Lemma big_scale n c f : big n (fun i => fmul c (f i)) = fmul c (big n f).
Proof. induction n as [|n IH]; cbn [big]; [ring|rewrite IH; ring]. Qed.
Lemma big_swap n m (f : nat -> nat -> fld) : big n (fun i => big m (f i)) = big m (fun j => big n (fun i => f i j)).
Proof.
  induction n as [|n IH]; cbn [big]; [symmetry; apply big_zero; reflexivity|]. rewrite IH, <- big_add. reflexivity.
Qed.
Lemma big_single n k c : k < n -> big n (fun i => if i =? k then c i else fzero) = c k.
Proof.
  induction n as [|n IH]; intros Hk; [lia|]. cbn [big]. destruct (Nat.eq_dec k n) as [->|Hn].
  - rewrite Nat.eqb_refl, big_zero; [ring|]. intros i Hi. rewrite (proj2 (Nat.eqb_neq i n)) by lia. reflexivity.
  - rewrite IH by lia. rewrite (proj2 (Nat.eqb_neq n k)) by lia. ring.
Qed.
Lemma big_shift n f : big (S n) f = fadd (f 0) (big n (fun i => f (S i))).
Proof. induction n as [|n IH]; [cbn [big]; ring|]. change (big (S (S n)) f) with (fadd (big (S n) f) (f (S n))). rewrite IH. cbn [big]. ring. Qed.
Lemma big_more n m f : n <= m -> (forall i, n <= i -> i < m -> f i = fzero) -> big m f = big n f.
Proof.
  intros Hnm H. induction m as [|m IH]; [replace n with 0 by lia; reflexivity|].
  destruct (Nat.eq_dec n (S m)) as [->|Hn]; [reflexivity|]. cbn [big]. rewrite IH, (H m) by (intros; try apply H; lia). ring.
Qed.
Lemma big_const n c : big n (fun _ => c) = fmul (of_nat n) c.
Proof.
  induction n as [|n IH]; cbn [big]; [change (of_nat 0) with fzero; ring|].
  rewrite IH. replace (S n) with (n + 1) by lia. rewrite of_nat_add. change (of_nat 1) with fone. ring.
Qed.
Lemma geometric n x : fmul (fsub x fone) (big n (fpow x)) = fsub (fpow x n) fone.
Proof. induction n as [|n IH]; cbn [big fpow]; [ring|]. transitivity (fadd (fmul (fsub x fone) (big n (fpow x))) (fmul (fsub x fone) (fpow x n))); [ring|rewrite IH; ring]. Qed.
Lemma sum_f_big l : sum_f l = big (length l) (fun i => nth i l fzero).
Proof. induction l as [|x l IH]; [reflexivity|]. cbn [length]. rewrite big_shift. cbn [nth sum_f fold_right]. fold (sum_f l). rewrite IH. reflexivity. Qed.
Lemma sum_f_map n f : sum_f (map f (seq 0 n)) = big n f.
Proof.
  rewrite sum_f_big, map_length, seq_length. apply big_ext. intros i Hi.
  rewrite (nth_indep _ _ (f 0)) by (rewrite map_length, seq_length; exact Hi). rewrite map_nth, seq_nth by exact Hi. reflexivity.
Qed.

(** *** polynomials *)
Lemma eval_big p : forall n x, length p <= n -> poly_eval p x = big n (fun i => fmul (nth i p fzero) (fpow x i)).
Proof.
  induction p as [|c p IH]; intros n x Hn; cbn [poly_eval length] in *.
  - symmetry. apply big_zero. intros i _. destruct i; cbn [nth]; ring.
  - destruct n as [|n]; [lia|]. rewrite big_shift. cbn [nth fpow]. rewrite (IH n x) by lia. rewrite <- big_scale.
    transitivity (fadd c (big n (fun i => fmul (nth i p fzero) (fmul x (fpow x i))))); [f_equal; apply big_ext; intros; ring|]. f_equal. ring.
Qed.
Lemma eval_add a : forall b x, poly_eval (poly_add a b) x = fadd (poly_eval a x) (poly_eval b x).
Proof. induction a as [|c a IH]; intros [|d b] x; cbn [poly_add poly_eval]; [ring|ring|ring|rewrite IH; ring]. Qed.
Lemma eval_scale c p x : poly_eval (map (fmul c) p) x = fmul c (poly_eval p x).
Proof. induction p as [|d p IH]; cbn [map poly_eval]; [ring|rewrite IH; ring]. Qed.
Lemma eval_mul a b x : poly_eval (poly_mul a b) x = fmul (poly_eval a x) (poly_eval b x).
Proof. induction a as [|c a IH]; cbn [poly_mul poly_eval]; [ring|]. rewrite eval_add, eval_scale. cbn [poly_eval]. rewrite IH. ring. Qed.
Lemma eval_zeros n x : poly_eval (repeat fzero n) x = fzero.
Proof. induction n as [|n IH]; cbn [repeat poly_eval]; [reflexivity|rewrite IH; ring]. Qed.
Lemma add_length a : forall b, length (poly_add a b) = Nat.max (length a) (length b).
Proof. induction a as [|c a IH]; intros [|d b]; cbn [poly_add length Nat.max]; [reflexivity|reflexivity|lia|rewrite IH; reflexivity]. Qed.
Lemma mul_length a b n m : length a = S n -> length b = S m -> length (poly_mul a b) = S (n + m).
Proof.
  revert n. induction a as [|c a IH]; intros n Ha Hb; cbn [length] in Ha; [discriminate|].
  cbn [poly_mul]. rewrite add_length, map_length, Hb. cbn [length]. destruct a as [|c' a]; cbn [length] in *.
  - injection Ha as <-. cbn. lia.
  - destruct n as [|n]; [lia|]. rewrite (IH n) by lia. lia.
Qed.
(** a polynomial with n coefficients, not all zero, has fewer than n roots *)
Fixpoint deflate (p : list fld) (a : fld) : list fld :=
  match p with [] => [] | c :: p' => match p' with [] => [] | _ => poly_eval p' a :: deflate p' a end end.
Lemma deflate_length p a : length (deflate p a) = length p - 1.
Proof. induction p as [|c p IH]; [reflexivity|]. destruct p as [|d p]; [reflexivity|]. cbn [deflate length] in *. rewrite IH. lia. Qed.
Lemma deflate_eval p a x : poly_eval p x = fadd (fmul (fsub x a) (poly_eval (deflate p a) x)) (poly_eval p a).
Proof.
  induction p as [|c p IH]; [cbn; ring|]. destruct p as [|d p]; [cbn; ring|].
  change (deflate (c :: d :: p) a) with (poly_eval (d :: p) a :: deflate (d :: p) a).
  change (poly_eval (c :: d :: p) x) with (fadd c (fmul x (poly_eval (d :: p) x))).
  change (poly_eval (c :: d :: p) a) with (fadd c (fmul a (poly_eval (d :: p) a))).
  change (poly_eval (poly_eval (d :: p) a :: deflate (d :: p) a) x) with (fadd (poly_eval (d :: p) a) (fmul x (poly_eval (deflate (d :: p) a) x))).
  rewrite IH. ring.
Qed.
Lemma roots_zero rs : forall p, NoDup rs -> length p <= length rs -> (forall r, In r rs -> poly_eval p r = fzero) -> forall x, poly_eval p x = fzero.
Proof.
  induction rs as [|r rs IH]; intros p Hn Hl Hr x; cbn [length] in Hl.
  - destruct p; [reflexivity|cbn in Hl; lia].
  - inversion Hn as [|? ? Hx Hn']; subst. rewrite (deflate_eval p r x), (Hr r) by (left; reflexivity).
    rewrite (IH (deflate p r)); [ring|exact Hn'|rewrite deflate_length; lia|].
    intros s Hs. pose proof (Hr s (or_intror Hs)) as H. rewrite (deflate_eval p r s), (Hr r) in H by (left; reflexivity).
    assert (H2 : fmul (fsub s r) (poly_eval (deflate p r) s) = fzero) by (rewrite <- H; ring).
    destruct (f_integral _ _ H2) as [H3|H3]; [|exact H3]. apply fsub_zero in H3. subst. contradiction.
Qed.
Lemma few_roots p rs : NoDup rs -> (forall r, In r rs -> poly_eval p r = fzero) -> (exists x, poly_eval p x <> fzero) -> length rs < length p.
Proof.
  intros Hn Hr [x Hx]. destruct (le_lt_dec (length p) (length rs)) as [Hl|Hl]; [|exact Hl]. exfalso. apply Hx. apply (roots_zero rs); assumption.
Qed.

(** *** roots of unity *)
Lemma generator_order : squared 65 generator = fneg fone.
Proof. apply feqb_eq. vm_cast_no_check (eq_refl true). Qed.
Lemma minus_one : fneg fone <> fone.
Proof. intros H. apply (f_equal fval) in H. vm_compute in H. discriminate H. Qed.
Lemma squared_add a : forall b x, squared (a + b) x = squared b (squared a x).
Proof. induction a as [|a IH]; intros b x; cbn [squared Nat.add]; [reflexivity|apply IH]. Qed.
Lemma root_half l : S l <= 66 -> fpow (root (S l)) (2 ^ l) = fneg fone.
Proof.
  intros H. unfold root. rewrite <- squared_pow, <- squared_add. replace (66 - S l + l) with 65 by lia. exact generator_order.
Qed.
Lemma root_full l : l <= 66 -> fpow (root l) (2 ^ l) = fone.
Proof.
  intros H. unfold root. rewrite <- squared_pow, <- squared_add. replace (66 - l + l) with (65 + 1) by lia.
  rewrite squared_add, generator_order. cbn [squared]. ring.
Qed.
Lemma root_step l l' : l <= l' -> l' <= 66 -> fpow (root l') (2 ^ (l' - l)) = root l.
Proof. intros H H'. unfold root. rewrite <- squared_pow, <- squared_add. f_equal. lia. Qed.
Lemma root_pow_ne l d : l <= 66 -> 0 < d -> d < 2 ^ l -> fpow (root l) d <> fone.
Proof.
  intros Hl Hd Hlt H. destruct (odd_part d Hd) as (s & o & E). destruct l as [|l]; [cbn in Hlt; lia|].
  assert (Hs : s <= l).
  { destruct (le_lt_dec s l) as [?|Hs]; [assumption|exfalso]. assert (2 ^ S l <= 2 ^ s) by (apply Nat.pow_le_mono_r; lia). nia. }
  apply (f_equal (fun y => fpow y (2 ^ (l - s)))) in H. rewrite fpow_one, <- fpow_mul in H.
  replace (d * 2 ^ (l - s)) with (2 ^ l * (2 * o + 1)) in H.
  - rewrite fpow_mul, root_half, fpow_add, fpow_mul in H by exact Hl. cbn [fpow] in H.
    assert (E1 : fmul (fneg fone) (fmul (fneg fone) fone) = fone) by ring. rewrite E1, fpow_one in H. apply minus_one. rewrite <- H at 2. ring.
  - rewrite E. replace (2 ^ l) with (2 ^ s * 2 ^ (l - s)); [ring|]. rewrite <- Nat.pow_add_r. f_equal. lia.
Qed.
Lemma root_inj l i j : l <= 66 -> i < 2 ^ l -> j < 2 ^ l -> fpow (root l) i = fpow (root l) j -> i = j.
Proof.
  intros Hl. assert (Hlt : forall i j, i < j -> j < 2 ^ l -> fpow (root l) i <> fpow (root l) j).
  { clear i j. intros i j Hij Hj H. apply (root_pow_ne l (j - i)); [exact Hl|lia|lia|].
    transitivity (fmul (fpow (root l) (2 ^ l)) (fpow (root l) (j - i))); [rewrite root_full by exact Hl; ring|].
    replace (2 ^ l) with ((2 ^ l - i) + i) by lia. rewrite fpow_add.
    transitivity (fmul (fpow (root l) (2 ^ l - i)) (fpow (root l) j)); [replace j with (i + (j - i)) at 2 by lia; rewrite (fpow_add _ i (j - i)); ring|].
    rewrite <- H, <- fpow_add. replace (2 ^ l - i + i) with (2 ^ l) by lia. apply root_full, Hl. }
  intros Hi Hj H. destruct (lt_eq_lt_dec i j) as [[H1|H1]|H1]; [exfalso; exact (Hlt i j H1 Hj H)|exact H1|exfalso; exact (Hlt j i H1 Hi (eq_sym H))].
Qed.
Lemma root_sum l d : l <= 66 -> 0 < d -> d < 2 ^ l -> big (2 ^ l) (fpow (fpow (root l) d)) = fzero.
Proof.
  intros Hl Hd Hlt. pose proof (geometric (2 ^ l) (fpow (root l) d)) as H.
  rewrite <- fpow_mul, Nat.mul_comm, fpow_mul, root_full, fpow_one in H by exact Hl.
  assert (H2 : fmul (fsub (fpow (root l) d) fone) (big (2 ^ l) (fpow (fpow (root l) d))) = fzero) by (rewrite H; ring).
  destruct (f_integral _ _ H2) as [H3|H3]; [|exact H3]. apply fsub_zero in H3. exfalso. exact (root_pow_ne l d Hl Hd Hlt H3).
Qed.

(** *** interpolation *)
Lemma nth_map_seq {A} (f : nat -> A) n i d : i < n -> nth i (map f (seq 0 n)) d = f i.
Proof. intros Hi. rewrite (nth_indep _ d (f 0)) by (rewrite map_length, seq_length; exact Hi). rewrite map_nth, seq_nth by exact Hi. reflexivity. Qed.
Lemma dft_nth l v k : k < 2 ^ l -> nth k (dft l v) fzero = poly_eval v (fpow (root l) k).
Proof. intros Hk. unfold dft, dft_with. apply (nth_map_seq (fun k => poly_eval v (fpow (root l) k))). exact Hk. Qed.
Lemma interp_length l v : length (interpolate l v) = 2 ^ l.
Proof. unfold interpolate, dft_inv_finish. rewrite map_length, seq_length. reflexivity. Qed.
Lemma pow2_pos l : 0 < 2 ^ l.
Proof. apply Nat.neq_0_lt_0, Nat.pow_nonzero. discriminate. Qed.
Lemma interp_nth l v j : l <= 66 -> j < 2 ^ l ->
  nth j (interpolate l v) fzero = fmul (finv (of_nat (2 ^ l))) (poly_eval v (fpow (root l) (2 ^ l - j))).
Proof.
  intros Hl Hj. unfold interpolate, dft_inv_finish. pose proof (pow2_pos l).
  rewrite (nth_map_seq (fun j => fmul (finv (of_nat (2 ^ l))) (nth ((2 ^ l - j) mod 2 ^ l) (dft l v) fzero))) by exact Hj.
  rewrite dft_nth by (apply Nat.mod_upper_bound; lia). f_equal. f_equal. destruct j as [|j].
  - rewrite Nat.sub_0_r, Nat.mod_same by lia. rewrite root_full by exact Hl. reflexivity.
  - rewrite Nat.mod_small by lia. reflexivity.
Qed.
Lemma interp_eval l v x : l <= 66 -> length v <= 2 ^ l ->
  poly_eval (interpolate l v) x = big (2 ^ l) (fun i => fmul (nth i v fzero) (fmul (finv (of_nat (2 ^ l))) (big (2 ^ l) (fun j => fmul (fpow (root l) (i * (2 ^ l - j))) (fpow x j))))).
Proof.
  intros Hl Hv. rewrite (eval_big _ (2 ^ l)) by (rewrite interp_length; lia).
  transitivity (big (2 ^ l) (fun j => big (2 ^ l) (fun i => fmul (nth i v fzero) (fmul (finv (of_nat (2 ^ l))) (fmul (fpow (root l) (i * (2 ^ l - j))) (fpow x j)))))).
  - apply big_ext. intros j Hj. rewrite interp_nth by assumption. rewrite (eval_big v (2 ^ l)) by exact Hv.
    transitivity (fmul (fmul (finv (of_nat (2 ^ l))) (fpow x j)) (big (2 ^ l) (fun i => fmul (nth i v fzero) (fpow (fpow (root l) (2 ^ l - j)) i)))); [ring|].
    rewrite <- big_scale. apply big_ext. intros i Hi. rewrite <- fpow_mul, (Nat.mul_comm (2 ^ l - j) i). ring.
  - rewrite big_swap. apply big_ext. intros i Hi. rewrite big_scale. f_equal. rewrite big_scale. reflexivity.
Qed.
Lemma interp_value l v k : l <= 66 -> length v <= 2 ^ l -> k < 2 ^ l -> poly_eval (interpolate l v) (fpow (root l) k) = nth k v fzero.
Proof.
  intros Hl Hv Hk. rewrite interp_eval by assumption.
  rewrite <- (big_single (2 ^ l) k (fun i => nth i v fzero)) by exact Hk. apply big_ext. intros i Hi.
  set (w := root l).
  assert (Hterm : forall j, j < 2 ^ l -> fmul (fpow w (i * (2 ^ l - j))) (fpow (fpow w k) j) = fpow (fpow w (2 ^ l - i + k)) j).
  { intros j Hj. rewrite (fpow_add w (2 ^ l - i) k), fpow_prod. f_equal. rewrite <- fpow_mul.
    (* both sides are inverse to w^(i*j) *)
    assert (HA : fmul (fpow w (i * (2 ^ l - j))) (fpow w (i * j)) = fone).
    { rewrite <- fpow_add. replace (i * (2 ^ l - j) + i * j) with (2 ^ l * i) by nia. rewrite fpow_mul. unfold w. rewrite root_full, fpow_one by exact Hl. reflexivity. }
    assert (HB : fmul (fpow w ((2 ^ l - i) * j)) (fpow w (i * j)) = fone).
    { rewrite <- fpow_add. replace ((2 ^ l - i) * j + i * j) with (2 ^ l * j) by nia. rewrite fpow_mul. unfold w. rewrite root_full, fpow_one by exact Hl. reflexivity. }
    transitivity (fmul (fpow w (i * (2 ^ l - j))) (fmul (fpow w ((2 ^ l - i) * j)) (fpow w (i * j)))); [rewrite HB; ring|].
    transitivity (fmul (fpow w ((2 ^ l - i) * j)) (fmul (fpow w (i * (2 ^ l - j))) (fpow w (i * j)))); [ring|rewrite HA; ring]. }
  rewrite (big_ext _ _ _ Hterm).
  destruct (i =? k) eqn:Hik.
  - apply Nat.eqb_eq in Hik. subst i. replace (2 ^ l - k + k) with (2 ^ l) by lia. unfold w. rewrite root_full by exact Hl.
    rewrite (big_ext _ _ (fun _ => fone)) by (intros; apply fpow_one). rewrite big_const.
    transitivity (fmul (nth k v fzero) (fmul (of_nat (2 ^ l)) (finv (of_nat (2 ^ l))))); [ring|]. rewrite finv_pow2. ring.
  - apply Nat.eqb_neq in Hik. assert (Hz : big (2 ^ l) (fpow (fpow w (2 ^ l - i + k))) = fzero); [|rewrite Hz; ring].
    destruct (le_lt_dec i k) as [Hle|Hlt].
    + replace (2 ^ l - i + k) with (2 ^ l + (k - i)) by lia. rewrite fpow_add. unfold w. rewrite root_full by exact Hl.
      replace (fmul fone (fpow (root l) (k - i))) with (fpow (root l) (k - i)) by ring. apply root_sum; [exact Hl|lia|lia].
    + apply root_sum; [exact Hl|lia|lia].
Qed.
(** two polynomials of at most 2^l coefficients that agree on the domain are equal *)
Lemma domain_nodup l : l <= 66 -> NoDup (map (fpow (root l)) (seq 0 (2 ^ l))).
Proof.
  intros Hl. apply NoDup_map_in; [|apply seq_NoDup]. intros a b Ha Hb H. apply in_seq in Ha, Hb. apply (root_inj l); [exact Hl|lia|lia|exact H].
Qed.
Lemma eval_neg p x : poly_eval (map fneg p) x = fneg (poly_eval p x).
Proof. induction p as [|c p IH]; cbn [map poly_eval]; [ring|rewrite IH; ring]. Qed.
Lemma interp_unique l w v : l <= 66 -> length w <= 2 ^ l -> length v <= 2 ^ l ->
  (forall k, k < 2 ^ l -> poly_eval w (fpow (root l) k) = nth k v fzero) -> forall x, poly_eval w x = poly_eval (interpolate l v) x.
Proof.
  intros Hl Hw Hv H x. apply fsub_zero.
  transitivity (poly_eval (poly_add w (map fneg (interpolate l v))) x); [rewrite eval_add, eval_neg; ring|].
  apply (roots_zero (map (fpow (root l)) (seq 0 (2 ^ l)))); [apply domain_nodup, Hl|rewrite add_length, !map_length, interp_length, seq_length; lia|].
  intros r Hr. apply in_map_iff in Hr. destruct Hr as (k & <- & Hk). apply in_seq in Hk.
  rewrite eval_add, eval_neg, H, interp_value by (assumption || lia). ring.
Qed.
