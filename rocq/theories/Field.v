(** prio::field::Field128 (crate prio 0.15, imported in src/lib.rs:11): integers modulo
    p = 2^128 - 7*2^66 + 1.  The crate keeps Montgomery residues; we model the residue class by its
    canonical representative in [0,p).  Model of an external crate, not of a file in /repo. *)
From Verif Require Import Base.
From Coq Require Import Eqdep_dec Ring_theory Ring.
Open Scope Z_scope.

Definition P : Z := 340282366920938462946865773367900766209.

Lemma P_def : P = 2 ^ 128 - 7 * 2 ^ 66 + 1.  Proof. vm_compute. reflexivity. Qed.
Lemma P_pos : 0 < P.  Proof. reflexivity. Qed.

Record fld := mkF { fval : Z; fok : (fval mod P =? fval) = true }.

Lemma f_ext a b : fval a = fval b -> a = b.
Proof.
  destruct a as [x hx], b as [y hy]; cbn; intros ->.
  f_equal. apply (UIP_dec Bool.bool_dec).
Qed.

Lemma fval_range a : 0 <= fval a < P.
Proof.
  destruct a as [x h]; cbn. apply Z.eqb_eq in h. rewrite <- h. apply Z.mod_pos_bound, P_pos.
Qed.
Lemma fval_mod a : fval a mod P = fval a.
Proof. apply Z.mod_small, fval_range. Qed.

(** x mod P, computed without a division: 2^128 = P + 7*2^66 - 1 *)
Definition fold_high (x : Z) : Z :=
  let h := Z.shiftr x 128 in Z.land x 340282366920938463463374607431768211455 + (Z.shiftl (7 * h) 66 - h).
Definition below_2P (x : Z) : Z := if x <? P then x else if x <? 2 * P then x - P else x mod P.
Definition reduce (x : Z) : Z :=
  if x <? 0 then (if x + P <? 0 then x mod P else x + P)
  else if x <? 2 * P then below_2P x else below_2P (fold_high (fold_high (fold_high x))).
Lemma fold_high_mod x : 0 <= x -> 0 <= fold_high x /\ fold_high x mod P = x mod P.
Proof.
  intros Hx. unfold fold_high. change 340282366920938463463374607431768211455 with (Z.ones 128). rewrite Z.land_ones by discriminate.
  rewrite Z.shiftr_div_pow2, Z.shiftl_mul_pow2 by discriminate. pose proof (Z.div_mod x (2 ^ 128) ltac:(discriminate)) as Hd.
  pose proof (Z.mod_pos_bound x (2 ^ 128) eq_refl) as Hm. pose proof (Z.div_pos x (2 ^ 128) Hx eq_refl) as Hq. set (h := x / 2 ^ 128) in *. set (l := x mod 2 ^ 128) in *.
  split; [change (2 ^ 66) with 73786976294838206464; lia|]. rewrite Hd. replace (2 ^ 128 * h + l) with (l + (7 * h * 2 ^ 66 - h) + h * P) by (rewrite P_def; ring).
  symmetry. apply Z.mod_add. discriminate.
Qed.
Lemma below_2P_mod x : 0 <= x -> below_2P x = x mod P.
Proof.
  intros Hx. unfold below_2P. pose proof P_pos. destruct (Z.ltb_spec x P); [symmetry; apply Z.mod_small; lia|]. destruct (Z.ltb_spec x (2 * P)); [|reflexivity].
  symmetry. replace x with (x - P + 1 * P) at 1 by ring. rewrite Z.mod_add by discriminate. apply Z.mod_small. lia.
Qed.
Lemma reduce_mod x : reduce x = x mod P.
Proof.
  unfold reduce. pose proof P_pos. destruct (Z.ltb_spec x 0).
  - destruct (Z.ltb_spec (x + P) 0); [reflexivity|]. symmetry. replace x with (x + P + (-1) * P) at 1 by ring. rewrite Z.mod_add by discriminate. apply Z.mod_small. lia.
  - destruct (Z.ltb_spec x (2 * P)); [apply below_2P_mod; lia|]. destruct (fold_high_mod x) as [A1 A2]; [assumption|]. destruct (fold_high_mod _ A1) as [B1 B2].
    destruct (fold_high_mod _ B1) as [C1 C2]. rewrite below_2P_mod by exact C1. congruence.
Qed.
Lemma of_Z_ok x : (reduce x mod P =? reduce x) = true.
Proof. rewrite reduce_mod. apply Z.eqb_eq. apply Z.mod_mod. discriminate. Qed.

(** Field128::from(u128) and friends: reduction mod p *)
Definition of_Z (x : Z) : fld := mkF (reduce x) (of_Z_ok x).
Definition of_N (x : N) : fld := of_Z (Z.of_N x).
Definition of_nat (x : nat) : fld := of_Z (Z.of_nat x).

Definition fzero : fld := of_Z 0.
Definition fone : fld := of_Z 1.
Definition fadd (a b : fld) : fld := of_Z (fval a + fval b).
Definition fsub (a b : fld) : fld := of_Z (fval a - fval b).
Definition fneg (a : fld) : fld := of_Z (- fval a).
Definition fmul (a b : fld) : fld := of_Z (fval a * fval b).
Definition feqb (a b : fld) : bool := fval a =? fval b.

Lemma fval_of_Z x : fval (of_Z x) = x mod P.  Proof. apply reduce_mod. Qed.

Lemma of_Z_add x y : of_Z (x + y) = fadd (of_Z x) (of_Z y).
Proof. apply f_ext. unfold fadd. rewrite !fval_of_Z. apply Z.add_mod. discriminate. Qed.
Lemma of_Z_mul x y : of_Z (x * y) = fmul (of_Z x) (of_Z y).
Proof. apply f_ext. unfold fmul. rewrite !fval_of_Z. apply Z.mul_mod. discriminate. Qed.
Lemma of_Z_sub x y : of_Z (x - y) = fsub (of_Z x) (of_Z y).
Proof. apply f_ext. unfold fsub. rewrite !fval_of_Z. apply Zminus_mod. Qed.
Lemma of_Z_opp x : of_Z (- x) = fneg (of_Z x).
Proof.
  apply f_ext. unfold fneg. rewrite !fval_of_Z.
  replace (- x) with (0 - x) by lia. replace (- (x mod P)) with (0 - x mod P) by lia.
  rewrite Zminus_mod. rewrite (Zminus_mod 0 (x mod P)). rewrite Z.mod_mod by discriminate. reflexivity.
Qed.
Lemma of_Z_fval a : of_Z (fval a) = a.
Proof. apply f_ext. rewrite fval_of_Z. apply fval_mod. Qed.

Lemma feqb_eq a b : feqb a b = true <-> a = b.
Proof.
  unfold feqb. rewrite Z.eqb_eq. split; [apply f_ext | intros ->; reflexivity].
Qed.

Lemma f_ring : ring_theory fzero fone fadd fmul fsub fneg (@eq fld).
Proof.
  unfold fzero, fone.
  constructor; intros; repeat match goal with x : fld |- _ => rewrite <- (of_Z_fval x); generalize (fval x); clear x; intro end;
    rewrite <- ?of_Z_add, <- ?of_Z_mul, <- ?of_Z_sub, <- ?of_Z_opp, <- ?of_Z_add, <- ?of_Z_mul; f_equal; ring.
Qed.
Add Ring fld_ring : f_ring.

(** Encode::get_encoded for Field128: the canonical value as 16 little-endian bytes. *)
Definition get_encoded (a : fld) : bytes := le_bytes 16 (Z.to_N (fval a)).

Close Scope Z_scope.
