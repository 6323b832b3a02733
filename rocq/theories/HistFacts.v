(** Proofs about Histogram.v: linearity of the query, completeness, spoilt proofs. *)
From Verif Require Import Base Field Util Env PrimeFacts Histogram PolyFacts SpecVidpf SpecCollect SpecWhh SpecHist Server.

(** *** sizes *)
Lemma hist_ok_bound len : hist_ok len = true -> 0 < len /\ (Z.of_nat len < 2 ^ 32)%Z.
Proof.
  unfold hist_ok. intros H. apply andb_true_iff in H. destruct H as [H1 H2]. apply negb_true_iff, Nat.eqb_neq in H1. apply N.ltb_lt in H2.
  split; [lia|]. change (2 ^ 32)%Z with 4294967296%Z. lia.
Qed.
Lemma ncalls_bounds c len : 0 < c -> len <= c * ncalls c len /\ c * ncalls c len <= len + c - 1.
Proof.
  intros Hc. unfold ncalls. pose proof (Nat.div_mod (len + c - 1) c ltac:(lia)) as H. pose proof (Nat.mod_upper_bound (len + c - 1) c ltac:(lia)). lia.
Qed.
Lemma ncalls_le c len : 0 < c -> ncalls c len <= len.
Proof. intros Hc. destruct (ncalls_bounds c len Hc) as [_ H]. nia. Qed.
Lemma ncalls_pos c len : 0 < c -> 0 < len -> 0 < ncalls c len.
Proof. intros Hc Hl. destruct (ncalls_bounds c len Hc) as [H _]. nia. Qed.
Lemma log2_up_small n k : 0 < n -> (Z.of_nat n <= 2 ^ Z.of_nat k)%Z -> Nat.log2_up n <= k.
Proof.
  intros Hn H. apply Nat.log2_up_le_pow2; [exact Hn|]. apply Nat2Z.inj_le. rewrite Nat2Z.inj_pow. exact H.
Qed.
Lemma wire_log_small c len : 0 < c -> hist_ok len = true -> wire_log c len <= 33.
Proof.
  intros Hc H. apply hist_ok_bound in H. unfold wire_log. apply log2_up_small; [lia|]. change (2 ^ Z.of_nat 33)%Z with (2 ^ 32 + 2 ^ 32)%Z.
  pose proof (ncalls_le c len Hc). lia.
Qed.
Lemma calls_fit c len : 1 + ncalls c len <= 2 ^ wire_log c len.
Proof. unfold wire_log. pose proof (Nat.log2_up_le_pow2 (1 + ncalls c len) (Nat.log2_up (1 + ncalls c len)) ltac:(lia)) as H. apply H. lia. Qed.
Lemma gpl_log c len : wire_log c len <= Nat.log2_up (gadget_poly_len c len) <= wire_log c len + 1.
Proof.
  unfold gadget_poly_len. pose proof (pow2_pos (wire_log c len)) as Hp. split.
  - rewrite <- (Nat.log2_up_pow2 (wire_log c len)) at 1 by lia. apply Nat.log2_up_le_mono. lia.
  - apply Nat.log2_up_le_pow2; [lia|]. rewrite Nat.pow_add_r. cbn [Nat.pow]. lia.
Qed.

(** *** sums of vectors, entry by entry *)
Definition adds (a b c : list fld) : Prop := length a = length c /\ length b = length c /\ forall i, nth i c fzero = fadd (nth i a fzero) (nth i b fzero).
Lemma adds_of a b c : shares_of a b c -> adds a b c.
Proof.
  intros (H0 & H1 & H). split; [exact H0|]. split; [exact H1|]. intros i. destruct (le_lt_dec (length c) i) as [Hi|Hi].
  - rewrite !nth_overflow by lia. ring.
  - apply nth_error_nth. apply H; apply nth_error_nth'; lia.
Qed.
Lemma skipn_nth (l : list fld) n i : nth i (skipn n l) fzero = nth (n + i) l fzero.
Proof. revert l. induction n as [|n IH]; intros [|x l]; cbn [skipn Nat.add nth]; [reflexivity|reflexivity|destruct i; reflexivity|apply IH]. Qed.
Lemma firstn_nth (l : list fld) n i : nth i (firstn n l) fzero = if i <? n then nth i l fzero else fzero.
Proof.
  revert l i. induction n as [|n IH]; intros l i; [destruct i; reflexivity|]. destruct l as [|x l]; [cbn [firstn]; destruct i, (_ <? _); reflexivity|].
  destruct i as [|i]; [reflexivity|]. cbn [firstn nth]. rewrite IH. reflexivity.
Qed.
Lemma adds_skipn a b c n : adds a b c -> adds (skipn n a) (skipn n b) (skipn n c).
Proof. intros (H0 & H1 & H). unfold adds. rewrite !skipn_length. repeat split; [lia|lia|]. intros i. rewrite !skipn_nth. apply H. Qed.
Lemma adds_firstn a b c n : adds a b c -> adds (firstn n a) (firstn n b) (firstn n c).
Proof. intros (H0 & H1 & H). unfold adds. rewrite !firstn_length. repeat split; [lia|lia|]. intros i. rewrite !firstn_nth. destruct (i <? n); [apply H|ring]. Qed.
Lemma adds_eval a b c x : adds a b c -> poly_eval c x = fadd (poly_eval a x) (poly_eval b x).
Proof.
  intros (H0 & H1 & H). rewrite !(eval_big _ (length c)) by lia. rewrite <- big_add. apply big_ext. intros i _. rewrite H. ring.
Qed.
Lemma adds_sum a b c : adds a b c -> sum_f c = fadd (sum_f a) (sum_f b).
Proof. intros (H0 & H1 & H). rewrite !sum_f_big, H0, H1, <- big_add. apply big_ext. intros i _. apply H. Qed.
Lemma adds_interp l a b c x : l <= 66 -> length c <= 2 ^ l -> adds a b c ->
  poly_eval (interpolate l c) x = fadd (poly_eval (interpolate l a) x) (poly_eval (interpolate l b) x).
Proof.
  intros Hl Hc (H0 & H1 & H). rewrite !interp_eval by (exact Hl || lia). rewrite <- big_add. apply big_ext. intros i _. rewrite H. ring.
Qed.

(** *** the parts of the verifier *)
(** entry i of the inputs of call k *)
Definition call_at (c : nat) (x : list fld) (j0 s : fld) (k i : nat) : fld :=
  let n := c * k + i / 2 in if Nat.even i then fmul (fpow j0 (n + 1)) (nth n x fzero) else fsub (nth n x fzero) s.
Lemma call_at_one c x j0 s k : call_at c x j0 s k 1 = fsub (nth (c * k) x fzero) s.
Proof. unfold call_at. cbv zeta. change (1 / 2) with 0. rewrite Nat.add_0_r. reflexivity. Qed.
Lemma pairs_nth (g h : nat -> fld) n : forall a i, i < 2 * n ->
  nth i (flat_map (fun j => [g j; h j]) (seq a n)) fzero = if Nat.even i then g (a + i / 2) else h (a + i / 2).
Proof.
  induction n as [|n IH]; intros a i Hi; [lia|]. cbn [seq flat_map app]. destruct i as [|[|i]].
  - cbn [nth]. change (Nat.even 0) with true. change (0 / 2) with 0. rewrite Nat.add_0_r. reflexivity.
  - cbn [nth]. change (Nat.even 1) with false. change (1 / 2) with 0. rewrite Nat.add_0_r. reflexivity.
  - cbn [nth]. rewrite IH by lia. replace (S (S i)) with (i + 1 * 2) by lia. rewrite Nat.div_add by lia. rewrite Nat.add_comm with (m := 1 * 2) at 1.
    change (Nat.even (1 * 2 + i)) with (Nat.even i). replace (S a + i / 2) with (a + (i / 2 + 1)) by lia. reflexivity.
Qed.
Lemma wire_values_length seeds calls i : length (wire_values seeds calls i) = 1 + length calls.
Proof. unfold wire_values. cbn [length]. rewrite map_length. reflexivity. Qed.
Lemma calls_length c len x j0 s : length (call_inputs c len x j0 s) = ncalls c len.
Proof. unfold call_inputs. rewrite map_length, seq_length. reflexivity. Qed.
Lemma wire_values_nth c len seeds x j0 s i k : k < ncalls c len -> i < arity c ->
  nth (k + 1) (wire_values seeds (call_inputs c len x j0 s) i) fzero = call_at c x j0 s k i.
Proof.
  intros Hk Hi. unfold wire_values, call_inputs. replace (k + 1) with (S k) by lia. cbn [nth]. rewrite map_map.
  rewrite (nth_map_seq (fun k => nth i (flat_map (fun j => let y := nth (k * c + j) x fzero in [fmul (fpow j0 (k * c + j + 1)) y; fsub y s]) (seq 0 c)) fzero)) by exact Hk.
  cbv zeta. rewrite (pairs_nth (fun j => fmul (fpow j0 (k * c + j + 1)) (nth (k * c + j) x fzero)) (fun j => fsub (nth (k * c + j) x fzero) s)) by exact Hi.
  unfold call_at. cbn [Nat.add]. rewrite (Nat.mul_comm k c). reflexivity.
Qed.
Lemma adds_wire c len s0 s1 sd x0 x1 x j0 c0 c1 cc i : adds s0 s1 sd -> adds x0 x1 x -> cc = fadd c0 c1 -> i < arity c ->
  adds (wire_values s0 (call_inputs c len x0 j0 c0) i) (wire_values s1 (call_inputs c len x1 j0 c1) i) (wire_values sd (call_inputs c len x j0 cc) i).
Proof.
  intros (_ & _ & Hs) (_ & _ & Hx) -> Hi. unfold adds. rewrite !wire_values_length, !calls_length. split; [reflexivity|]. split; [reflexivity|].
  intros [|k]; [apply Hs|]. destruct (le_lt_dec (ncalls c len) k) as [Hk|Hk].
  - rewrite !nth_overflow by (rewrite wire_values_length, calls_length; lia). ring.
  - replace (S k) with (k + 1) by lia. rewrite !wire_values_nth by assumption. unfold call_at. cbv zeta.
    rewrite !(Hx (c * k + i / 2)). destruct (Nat.even i); ring.
Qed.

Definition wire_at (c len : nat) (seeds x : list fld) (j0 s r : fld) (i : nat) : fld :=
  poly_eval (interpolate (wire_log c len) (wire_values seeds (call_inputs c len x j0 s) i)) r.
Definition answer (c len : nat) (x proof : list fld) (r j0 j1 s : fld) : list fld :=
  valid (query_outs c len (skipn (arity c) proof)) x [j0; j1] s ::
  map (wire_at c len (firstn (arity c) proof) x j0 s r) (seq 0 (arity c)) ++ [poly_eval (skipn (arity c) proof) r].
Lemma wire_polys_eq c len seeds calls : wire_polys c len seeds calls = map (fun i => interpolate (wire_log c len) (wire_values seeds calls i)) (seq 0 (arity c)).
Proof. reflexivity. Qed.
Lemma query_eq c len x proof r j0 j1 n : hist_query c len x proof [r] [j0; j1] n =
  if (length x =? len) && (length proof =? proof_len c len) then
    if feqb (fpow r (2 ^ wire_log c len)) fone then None else Some (answer c len x proof r j0 j1 (finv (of_nat n)))
  else None.
Proof.
  unfold hist_query. cbn [length Nat.eqb]. rewrite !andb_true_r. destruct ((length x =? len) && _); [|reflexivity].
  cbn [nth]. destruct (feqb _ fone); [reflexivity|]. rewrite wire_polys_eq, map_map. reflexivity.
Qed.
(** the sum of the products of the pairs *)
Definition pair_sum (c : nat) (w : nat -> fld) : fld := big c (fun j => fmul (w (2 * j)) (w (2 * j + 1))).
Lemma pair_sum_first c w : 0 < c -> pair_sum c w = fadd (fmul (w 0) (w 1)) (big (c - 1) (fun j => fmul (w (2 * S j)) (w (2 * S j + 1)))).
Proof. intros Hc. destruct c as [|n]; [lia|]. unfold pair_sum. rewrite big_shift. replace (S n - 1) with n by lia. reflexivity. Qed.
Lemma par_sum_pairs n : forall a (w : nat -> fld), par_sum (map w (seq a (2 * n))) = big n (fun j => fmul (w (a + 2 * j)) (w (a + 2 * j + 1))).
Proof.
  induction n as [|n IH]; intros a w; [reflexivity|]. replace (2 * S n) with (S (S (2 * n))) by lia. cbn [seq map par_sum]. rewrite IH, big_shift.
  f_equal; [f_equal; f_equal; lia|]. apply big_ext. intros j _. f_equal; f_equal; lia.
Qed.
Lemma par_poly_pairs m n : forall a (w : nat -> list fld) y, poly_eval (par_poly m (map w (seq a (2 * n)))) y =
  big n (fun j => fmul (poly_eval (w (a + 2 * j)) y) (poly_eval (w (a + 2 * j + 1)) y)).
Proof.
  induction n as [|n IH]; intros a w y; [apply eval_zeros|]. replace (2 * S n) with (S (S (2 * n))) by lia. cbn [seq map par_poly]. rewrite eval_add, eval_mul, IH, big_shift.
  f_equal; [f_equal; f_equal; f_equal; lia|]. apply big_ext. intros j _. f_equal; f_equal; f_equal; lia.
Qed.
Lemma par_poly_length m n k : forall a (w : nat -> list fld), (forall i, length (w i) = S k) -> m = 2 * k + 1 -> length (par_poly m (map w (seq a (2 * n)))) = m.
Proof.
  induction n as [|n IH]; intros a w Hw Hm; [apply repeat_length|]. replace (2 * S n) with (S (S (2 * n))) by lia. cbn [seq map par_poly].
  rewrite add_length, (mul_length _ _ k k), IH by (exact Hm || apply Hw || exact Hw). lia.
Qed.
Lemma decide_eq c a (w : nat -> fld) z : hist_decide c (a :: map w (seq 0 (arity c)) ++ [z]) = Some (feqb a fzero && feqb (pair_sum c w) z).
Proof.
  unfold hist_decide, verifier_len. cbn [length]. rewrite app_length, map_length, seq_length. cbn [length]. rewrite Nat.eqb_refl. cbn [skipn nth Nat.add].
  assert (Hl : length (map w (seq 0 (arity c))) = arity c) by (rewrite map_length, seq_length; reflexivity).
  rewrite firstn_app, Hl, Nat.sub_diag, firstn_O, app_nil_r, <- Hl at 1. rewrite firstn_all. rewrite app_nth2, Hl, Nat.sub_diag by lia. cbn [nth].
  unfold arity. rewrite par_sum_pairs. reflexivity.
Qed.
Lemma add_answers a b (v w : nat -> fld) y z n : add_shares (a :: map v (seq 0 n) ++ [y]) (b :: map w (seq 0 n) ++ [z]) = fadd a b :: map (fun i => fadd (v i) (w i)) (seq 0 n) ++ [fadd y z].
Proof.
  unfold add_shares. cbn [combine map fst snd]. f_equal. generalize 0 as k. induction n as [|n IH]; intros k; [reflexivity|]. cbn [seq map app combine fst snd]. f_equal. apply IH.
Qed.

Section Len.
Variable c len : nat.
Hypothesis Hc : 0 < c.
Hypothesis Hlen : hist_ok len = true.
Let l := wire_log c len.
Lemma Hl : l <= 66.
Proof. pose proof (wire_log_small c len Hc Hlen). unfold l. lia. Qed.
Lemma Hfit : 1 + ncalls c len <= 2 ^ l.
Proof. exact (calls_fit c len). Qed.

Lemma query_outs_eq p : query_outs c len p = map (fun k => poly_eval p (fpow (root l) (k + 1))) (seq 0 (ncalls c len)).
Proof.
  unfold query_outs. apply map_ext_in. intros k Hk. apply in_seq in Hk. pose proof (gpl_log c len) as Hg. fold l in Hg. fold l.
  set (l' := Nat.log2_up (gadget_poly_len c len)) in *. pose proof (wire_log_small c len Hc Hlen) as Hw. fold l in Hw.
  assert (E : 2 ^ l' = 2 ^ l * 2 ^ (l' - l)) by (rewrite <- Nat.pow_add_r; f_equal; lia). pose proof (pow2_pos (l' - l)).
  pose proof Hfit as Hf. rewrite dft_nth by nia. rewrite Nat.mul_comm, fpow_mul, root_step by lia. reflexivity.
Qed.
Lemma outs_sum p : sum_f (query_outs c len p) = big (ncalls c len) (fun k => poly_eval p (fpow (root l) (k + 1))).
Proof. rewrite query_outs_eq. apply sum_f_map. Qed.

(** the sum of the two answers is the answer for the sums *)
Lemma answer_adds x0 x1 x p0 p1 p r j0 j1 s0 s1 s : adds x0 x1 x -> adds p0 p1 p -> s = fadd s0 s1 ->
  add_shares (answer c len x0 p0 r j0 j1 s0) (answer c len x1 p1 r j0 j1 s1) = answer c len x p r j0 j1 s.
Proof.
  intros Hx Hp Hs. unfold answer. rewrite add_answers. f_equal; [|f_equal].
  - unfold valid. cbn [nth]. rewrite !outs_sum, (adds_sum _ _ _ Hx), Hs.
    rewrite (big_ext (ncalls c len) _ _ (fun i _ => adds_eval _ _ _ (fpow (root l) (i + 1)) (adds_skipn _ _ _ (arity c) Hp))), big_add. ring.
  - apply map_ext_in. intros i Hi. apply in_seq in Hi. unfold wire_at. fold l. symmetry. apply adds_interp; [exact Hl|rewrite wire_values_length, calls_length; exact Hfit|].
    apply adds_wire; [apply adds_firstn, Hp|exact Hx|exact Hs|lia].
  - rewrite <- (adds_eval _ _ _ r (adds_skipn _ _ _ (arity c) Hp)). reflexivity.
Qed.
Lemma half_half : fone = fadd (finv (of_nat 2)) (finv (of_nat 2)).
Proof. transitivity (fmul (of_Z 2) (finv (of_Z 2))); [symmetry; apply finv_two|]. change (of_nat 2) with (of_Z 2). change (of_Z 2) with (fadd fone fone) at 1. ring. Qed.

(** the outcome for shared input and proof, in terms of the sums *)
Definition outcome_of (x proof : list fld) (r j0 j1 : fld) : bool :=
  feqb (valid (query_outs c len (skipn (arity c) proof)) x [j0; j1] fone) fzero &&
  feqb (pair_sum c (wire_at c len (firstn (arity c) proof) x j0 fone r)) (poly_eval (skipn (arity c) proof) r).
Lemma decides_iff x0 x1 x p0 p1 proof r j0 j1 b : shares_of x0 x1 x -> shares_of p0 p1 proof ->
  (decides c len x0 x1 p0 p1 [j0; j1] [r] b <->
   length x = len /\ length proof = proof_len c len /\ ~ on_domain c len r /\ b = outcome_of x proof r j0 j1).
Proof.
  intros Hx Hp. pose proof Hx as (Lx0 & Lx1 & _). pose proof Hp as (Lp0 & Lp1 & _). apply adds_of in Hx, Hp.
  unfold decides. rewrite !query_eq, Lx0, Lx1, Lp0, Lp1. unfold on_domain. split.
  - intros (v0 & v1 & H0 & H1 & Hd). destruct (Nat.eqb_spec (length x) len) as [Ex|?]; [|discriminate]. destruct (Nat.eqb_spec (length proof) (proof_len c len)) as [Ep|?]; [|discriminate].
    cbn [andb] in *. destruct (feqb (fpow r (2 ^ wire_log c len)) fone) eqn:Er; [discriminate|]. injection H0 as <-. injection H1 as <-.
    rewrite (answer_adds _ _ _ _ _ _ _ _ _ _ _ fone Hx Hp half_half) in Hd.
    split; [exact Ex|]. split; [exact Ep|]. split; [intros H; apply feqb_eq in H; congruence|].
    unfold answer in Hd. rewrite decide_eq in Hd. injection Hd as <-. reflexivity.
  - intros (Ex & Ep & Er & ->). rewrite Ex, Ep, !Nat.eqb_refl. cbn [andb].
    destruct (feqb (fpow r (2 ^ wire_log c len)) fone) eqn:Ef; [apply feqb_eq in Ef; contradiction|].
    eexists. eexists. split; [reflexivity|]. split; [reflexivity|].
    rewrite (answer_adds _ _ _ _ _ _ _ _ _ _ _ fone Hx Hp half_half). unfold answer. apply decide_eq.
Qed.

(** *** the gadget polynomial *)
Definition wire_poly (seeds x : list fld) (j0 : fld) (i : nat) : list fld := interpolate l (wire_values seeds (call_inputs c len x j0 fone) i).
Definition gadget_poly (seeds x : list fld) (j0 : fld) : list fld :=
  par_poly (gadget_poly_len c len) (wire_polys c len seeds (call_inputs c len x j0 fone)).
Lemma gadget_poly_eval seeds x j0 y : poly_eval (gadget_poly seeds x j0) y = pair_sum c (fun i => poly_eval (wire_poly seeds x j0 i) y).
Proof. unfold gadget_poly. rewrite wire_polys_eq. unfold arity. rewrite par_poly_pairs. reflexivity. Qed.
Lemma gadget_poly_length seeds x j0 : length (gadget_poly seeds x j0) = gadget_poly_len c len.
Proof.
  unfold gadget_poly. rewrite wire_polys_eq. pose proof (pow2_pos (wire_log c len)) as Hp. unfold arity.
  apply (par_poly_length _ c (2 ^ wire_log c len - 1)); [intros i; rewrite interp_length; lia|reflexivity].
Qed.
Lemma wire_poly_at seeds x j0 i k : k < ncalls c len -> i < arity c -> poly_eval (wire_poly seeds x j0 i) (fpow (root l) (k + 1)) = call_at c x j0 fone k i.
Proof.
  intros Hk Hi. unfold wire_poly. pose proof Hfit as Hf. rewrite interp_value by (try rewrite wire_values_length, calls_length; (exact Hl || lia)). apply wire_values_nth; assumption.
Qed.
(** the value of the validity circuit *)
Definition circuit (x : list fld) (j0 j1 : fld) : fld :=
  fadd (fmul j1 (big len (fun i => fmul (fpow j0 (i + 1)) (fmul (nth i x fzero) (fsub (nth i x fzero) fone))))) (fmul (fmul j1 j1) (fsub (sum_f x) fone)).
Lemma big_app n m f : big (n + m) f = fadd (big n f) (big m (fun j => f (n + j))).
Proof. induction m as [|m IH]; [rewrite Nat.add_0_r; cbn [big]; ring|]. rewrite Nat.add_succ_r. cbn [big]. rewrite IH. ring. Qed.
Lemma big_chunks n f : big (c * n) f = big n (fun k => big c (fun j => f (c * k + j))).
Proof. induction n as [|n IH]; [rewrite Nat.mul_0_r; reflexivity|]. rewrite Nat.mul_succ_r, big_app, IH. reflexivity. Qed.
Lemma valid_circuit seeds x j0 j1 p : length x = len ->
  (forall k, k < ncalls c len -> poly_eval p (fpow (root l) (k + 1)) = poly_eval (gadget_poly seeds x j0) (fpow (root l) (k + 1))) ->
  valid (query_outs c len p) x [j0; j1] fone = circuit x j0 j1.
Proof.
  intros Hx Hp. unfold valid, circuit. cbn [nth]. f_equal. f_equal. rewrite outs_sum, (big_ext _ _ _ Hp).
  pose proof (ncalls_bounds c len Hc) as [Hb1 Hb2].
  rewrite <- (big_more len (c * ncalls c len) _ Hb1) by (intros i Hi _; rewrite nth_overflow by lia; ring).
  rewrite big_chunks. apply big_ext. intros k Hk. rewrite gadget_poly_eval. unfold pair_sum. apply big_ext. intros j Hj.
  rewrite !wire_poly_at by (exact Hk || unfold arity; lia). unfold call_at. cbv zeta.
  assert (E0 : Nat.even (2 * j) = true) by (apply Nat.even_spec; exists j; reflexivity).
  assert (E1 : Nat.even (2 * j + 1) = false) by (rewrite Nat.even_add, E0; reflexivity).
  rewrite E0, E1. replace (2 * j / 2) with j by (rewrite Nat.mul_comm, Nat.div_mul by lia; reflexivity).
  replace ((2 * j + 1) / 2) with j by (rewrite Nat.add_comm, Nat.mul_comm, Nat.div_add by lia; reflexivity). ring.
Qed.
Lemma circuit_checks x j0 j1 : circuit x j0 j1 = checks len x j0 j1.
Proof.
  assert (Hs : forall v, SpecCollect.fsum v = sum_f v) by (induction v as [|a v IH]; [reflexivity|cbn [SpecCollect.fsum]; rewrite IH; reflexivity]).
  unfold circuit, checks. rewrite (Hs x), (Hs (map _ _)), sum_f_map. reflexivity.
Qed.
Lemma unit_circuit x j0 j1 : unit_vector len x -> circuit x j0 j1 = fzero.
Proof.
  intros (Hx & m & Hm & H). unfold circuit. rewrite big_zero.
  - rewrite sum_f_big, Hx, (big_ext _ _ _ H), (big_single len m (fun _ => fone)) by exact Hm. ring.
  - intros i Hi. rewrite (H i Hi). destruct (i =? m); ring.
Qed.
Lemma outcome_eq x proof r j0 j1 : length x = len ->
  outcome_of x proof r j0 j1 = feqb (valid (query_outs c len (skipn (arity c) proof)) x [j0; j1] fone) fzero &&
    feqb (poly_eval (gadget_poly (firstn (arity c) proof) x j0) r) (poly_eval (skipn (arity c) proof) r).
Proof. intros Hx. unfold outcome_of. rewrite gadget_poly_eval. reflexivity. Qed.

(** *** completeness *)
Lemma prove_eq x pr j0 j1 : hist_prove c len x pr [j0; j1] =
  if (length x =? len) && (length pr =? arity c) then Some (pr ++ gadget_poly pr x j0) else None.
Proof.
  unfold hist_prove. cbn [length]. rewrite andb_true_r. destruct (_ && _); [|reflexivity]. cbn [nth]. change (of_nat 1) with fone. rewrite finv_one. reflexivity.
Qed.
Lemma proof_parts (pr g : list fld) : length pr = arity c -> firstn (arity c) (pr ++ g) = pr /\ skipn (arity c) (pr ++ g) = g.
Proof. intros H. rewrite <- H. split; [rewrite firstn_app, Nat.sub_diag, firstn_all, firstn_O; apply app_nil_r|rewrite skipn_app, Nat.sub_diag, skipn_all; reflexivity]. Qed.
(** the prover's proof for any input of the right length: the checks decide *)
Lemma honest_any x pr j0 j1 r proof x0 x1 p0 p1 : hist_prove c len x pr [j0; j1] = Some proof -> ~ on_domain c len r ->
  shares_of x0 x1 x -> shares_of p0 p1 proof -> decides c len x0 x1 p0 p1 [j0; j1] [r] (feqb (circuit x j0 j1) fzero).
Proof.
  intros Hpr Hr Sx Sp. rewrite prove_eq in Hpr. destruct (Nat.eqb_spec (length x) len) as [Ex|?]; [|discriminate]. destruct (Nat.eqb_spec (length pr) (arity c)) as [Er|?]; [|discriminate].
  cbn [andb] in Hpr. injection Hpr as <-. apply (decides_iff _ _ _ _ _ _ _ _ _ _ Sx Sp). split; [exact Ex|].
  split; [rewrite app_length, gadget_poly_length, Er; reflexivity|]. split; [exact Hr|].
  rewrite outcome_eq by exact Ex. destruct (proof_parts pr (gadget_poly pr x j0) Er) as [-> ->].
  rewrite (valid_circuit pr) by (exact Ex || reflexivity).
  rewrite (proj2 (feqb_eq (poly_eval (gadget_poly pr x j0) r) _) eq_refl), andb_true_r. reflexivity.
Qed.
Lemma complete x pr j0 j1 r proof x0 x1 p0 p1 : unit_vector len x -> hist_prove c len x pr [j0; j1] = Some proof -> ~ on_domain c len r ->
  shares_of x0 x1 x -> shares_of p0 p1 proof -> decides c len x0 x1 p0 p1 [j0; j1] [r] true.
Proof.
  intros Hu Hpr Hr Sx Sp. pose proof (honest_any x pr j0 j1 r proof x0 x1 p0 p1 Hpr Hr Sx Sp) as H. rewrite unit_circuit in H by exact Hu. exact H.
Qed.

(** *** spoilt proofs: something is added to the first entry *)
Lemma second_wire_eq pr x w r : second_wire c len pr x w -> forall j0, poly_eval w r = poly_eval (wire_poly pr x j0 1) r.
Proof.
  intros (Lw & H0 & H1 & H2) j0. unfold wire_poly. apply interp_unique; [exact Hl|exact Lw|rewrite wire_values_length, calls_length; exact Hfit|].
  intros [|k] Hk; [exact H0|]. destruct (lt_eq_lt_dec (S k) (ncalls c len)) as [[Hlt|He]|Hgt].
  - replace (S k) with (k + 1) by lia. rewrite wire_values_nth, call_at_one by (unfold arity; lia). apply H1. lia.
  - replace (S k) with (k + 1) by lia. rewrite wire_values_nth, call_at_one by (unfold arity; lia). apply H1. lia.
  - rewrite H2 by assumption. rewrite nth_overflow by (rewrite wire_values_length, calls_length; lia). reflexivity.
Qed.
Lemma second_wire_exists pr x j0 : second_wire c len pr x (wire_poly pr x j0 1).
Proof.
  pose proof Hfit as Hf. assert (Hwl : length (wire_values pr (call_inputs c len x j0 fone) 1) <= 2 ^ l) by (rewrite wire_values_length, calls_length; exact Hf).
  unfold second_wire. fold l. split; [unfold wire_poly; rewrite interp_length; lia|]. split.
  - exact (interp_value l (wire_values pr (call_inputs c len x j0 fone) 1) 0 Hl Hwl (pow2_pos l)).
  - split; [intros k Hk; rewrite wire_poly_at, call_at_one by (exact Hk || unfold arity; lia); reflexivity|].
    intros k Hk Hk2. unfold wire_poly. rewrite interp_value by (exact Hl || assumption). apply nth_overflow. rewrite wire_values_length, calls_length. lia.
Qed.
Lemma first_basis r d pr pr' x j0 : ~ on_domain c len r -> nth 0 pr' fzero = fadd (nth 0 pr fzero) d -> length pr' = length pr ->
  exists e, e <> fzero /\ poly_eval (wire_poly pr' x j0 0) r = fadd (poly_eval (wire_poly pr x j0 0) r) (fmul d e).
Proof.
  intros Hr H0 Hlp. exists (fmul (finv (of_nat (2 ^ l))) (big (2 ^ l) (fpow r))). split.
  - intros H. destruct (f_integral _ _ H) as [Hz|Hz].
    + pose proof (finv_pow2 l) as Hi. rewrite Hz in Hi. apply one_ne_zero. rewrite <- Hi. ring.
    + pose proof (geometric (2 ^ l) r) as Hg. rewrite Hz in Hg. apply Hr. unfold on_domain. fold l. apply fsub_zero. rewrite <- Hg. ring.
  - unfold wire_poly. rewrite !interp_eval by (try rewrite wire_values_length, calls_length; (exact Hl || exact Hfit)).
    pose proof (pow2_pos l) as Hpos.
    set (K := fun i => fmul (finv (of_nat (2 ^ l))) (big (2 ^ l) (fun j => fmul (fpow (root l) (i * (2 ^ l - j))) (fpow r j)))).
    assert (HK : K 0 = fmul (finv (of_nat (2 ^ l))) (big (2 ^ l) (fpow r))) by (unfold K; f_equal; apply big_ext; intros j _; cbn [Nat.mul fpow]; ring).
    rewrite <- HK, <- (big_single (2 ^ l) 0 (fun i => fmul d (K i))) by exact Hpos. rewrite <- big_add. apply big_ext. intros [|i] _.
    + cbn [wire_values nth Nat.eqb]. rewrite H0. fold (K 0). ring.
    + cbn [wire_values nth Nat.eqb]. fold (K (S i)). ring.
Qed.
Lemma spoilt x pr j0 j1 r proof d w x0 x1 p0 p1 proof' : unit_vector len x -> hist_prove c len x pr [j0; j1] = Some proof -> ~ on_domain c len r -> d <> fzero ->
  second_wire c len pr x w -> shares_of x0 x1 x ->
  shares_of p0 p1 proof' -> (exists c0 t, proof = c0 :: t /\ proof' = fadd c0 d :: t) ->
  decides c len x0 x1 p0 p1 [j0; j1] [r] (feqb (poly_eval w r) fzero).
Proof.
  intros Hu Hpr Hr Hd Hw Sx Sp (c0 & t & E & E'). rewrite prove_eq in Hpr. destruct (Nat.eqb_spec (length x) len) as [Ex|?]; [|discriminate]. destruct (Nat.eqb_spec (length pr) (arity c)) as [Er|?]; [|discriminate].
  cbn [andb] in Hpr. injection Hpr as Hpr. destruct pr as [|a pr]; [unfold arity in Er; cbn in Er; lia|]. rewrite <- Hpr in E. cbn [app] in E. injection E as -> <-.
  set (G := gadget_poly (c0 :: pr) x j0) in *. subst proof'.
  apply (decides_iff _ _ _ _ _ _ _ _ _ _ Sx Sp). split; [exact Ex|].
  split; [unfold proof_len; rewrite <- (gadget_poly_length (c0 :: pr) x j0), <- Er; fold G; cbn [length]; rewrite app_length; lia|]. split; [exact Hr|].
  rewrite outcome_eq by exact Ex. change (fadd c0 d :: pr ++ G) with ((fadd c0 d :: pr) ++ G).
  destruct (proof_parts (fadd c0 d :: pr) G) as [-> ->]; [cbn [length] in *; lia|].
  rewrite (valid_circuit (c0 :: pr)) by (exact Ex || reflexivity). rewrite unit_circuit by exact Hu.
  rewrite (proj2 (feqb_eq fzero fzero) eq_refl). cbn [andb].
  destruct (first_basis r d (c0 :: pr) (fadd c0 d :: pr) x j0 Hr eq_refl eq_refl) as (e & He & H0).
  assert (HW : forall i, 0 < i -> wire_poly (fadd c0 d :: pr) x j0 i = wire_poly (c0 :: pr) x j0 i) by (intros [|i] Hi; [lia|reflexivity]).
  unfold G. rewrite !gadget_poly_eval, (second_wire_eq (c0 :: pr) x w r Hw j0). rewrite !pair_sum_first by exact Hc. rewrite H0, HW by lia.
  rewrite (big_ext (c - 1) _ (fun j => fmul (poly_eval (wire_poly (c0 :: pr) x j0 (2 * S j)) r) (poly_eval (wire_poly (c0 :: pr) x j0 (2 * S j + 1)) r))) by (intros j _; rewrite !HW by lia; reflexivity).
  set (W0 := poly_eval (wire_poly _ x j0 0) r). set (W1 := poly_eval (wire_poly _ x j0 1) r). set (W2 := big (c - 1) _).
  destruct (feqb W1 fzero) eqn:EW; symmetry.
  - apply feqb_eq in EW. apply feqb_eq. rewrite EW. ring.
  - apply not_true_iff_false. intros H. apply feqb_eq in H.
    assert (Hz : fmul (fmul d e) W1 = fzero). { transitivity (fsub (fadd (fmul (fadd W0 (fmul d e)) W1) W2) (fadd (fmul W0 W1) W2)); [ring|rewrite H; ring]. }
    destruct (f_integral _ _ Hz) as [Hz'|Hz']; [destruct (f_integral _ _ Hz'); contradiction|]. rewrite Hz' in EW. rewrite (proj2 (feqb_eq fzero fzero) eq_refl) in EW. discriminate.
Qed.
End Len.

Lemma prover_total c len x pr jr : (exists proof, hist_prove c len x pr jr = Some proof) <-> length x = len /\ length pr = 2 * c /\ length jr = 2.
Proof.
  unfold hist_prove, arity. destruct (Nat.eqb_spec (length x) len) as [Hx|Hx]; destruct (Nat.eqb_spec (length pr) (2 * c)) as [Hp|Hp]; destruct (Nat.eqb_spec (length jr) 2) as [Hj|Hj]; cbn [andb];
    (split; [intros [proof Hq]; try discriminate Hq; auto|intros (Ha & Hb & Hd); try congruence; eexists; reflexivity]).
Qed.
Lemma honest_checks c len x pr j0 j1 r proof x0 x1 p0 p1 : 0 < c -> hist_ok len = true -> hist_prove c len x pr [j0; j1] = Some proof -> ~ on_domain c len r ->
  shares_of x0 x1 x -> shares_of p0 p1 proof -> decides c len x0 x1 p0 p1 [j0; j1] [r] (feqb (checks len x j0 j1) fzero).
Proof. intros Hc Hlen Hp Hr Sx Sp. rewrite <- (circuit_checks len). exact (honest_any c len Hc Hlen x pr j0 j1 r proof x0 x1 p0 p1 Hp Hr Sx Sp). Qed.
