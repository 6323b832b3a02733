(** A client whose two aggregators use different joint randomness: any weights are accepted. *)
From Verif Require Import Base BaseFacts Field Util UtilFacts Env Prg Vidpf Merkle Collect Server Driver PrimeFacts Histogram PolyFacts HistFacts HistSound HistRun HistForge
  SpecVidpf SpecTree SpecCollect SpecServer SpecDriver SpecLevel SpecWhh SpecHist VidpfFacts PairFacts FlpFacts WhhFacts3 WhhMain VidpfPropFacts DriverFacts.

Lemma add_shares_adds a b : length a = length b -> adds a b (add_shares a b).
Proof.
  intros Hl. unfold adds, add_shares. rewrite map_length, combine_length. split; [lia|]. split; [lia|].
  revert b Hl. induction a as [|x a IH]; intros [|y b] Hl i; try discriminate Hl; cbn [combine map nth].
  - destruct i; ring.
  - destruct i as [|i]; [reflexivity|]. cbn [length] in Hl. injection Hl as Hl. apply IH. exact Hl.
Qed.
Lemma add_shares_of a b : length a = length b -> shares_of a b (add_shares a b).
Proof.
  intros Hl. destruct (add_shares_adds a b Hl) as (H0 & H1 & H). split; [exact H0|]. split; [exact H1|]. intros i u v Hu Hv.
  assert (Hi : i < length (add_shares a b)) by (rewrite <- H0; apply nth_error_Some; congruence).
  rewrite (nth_error_nth' _ fzero Hi), H. f_equal. f_equal; apply nth_error_nth; assumption.
Qed.
Lemma of_nat_ne_zero n : 0 < n -> (Z.of_nat n < P)%Z -> of_nat n <> fzero.
Proof. intros Hn Hp H. apply (f_equal fval) in H. unfold of_nat, fzero, fone in H. rewrite !fval_of_Z in H. change (0 mod P)%Z with 0%Z in H. rewrite Z.mod_small in H by lia. lia. Qed.
Lemma constant_eval d n y : poly_eval (d :: repeat fzero n) y = d.
Proof. cbn [poly_eval]. rewrite eval_zeros. ring. Qed.

Section Len.
Variable c len : nat.
Hypothesis Hc : 0 < c.
Hypothesis Hlen : hist_ok len = true.
Let l := wire_log c len.
Let s := finv (of_nat 2).

(** the wires for the two joint randomness values, added up *)
Definition both_wire (x0 x1 : list fld) (a0 b0 : fld) (i : nat) : list fld :=
  let z := repeat fzero (arity c) in
  interpolate l (add_shares (wire_values z (call_inputs c len x0 a0 s) i) (wire_values z (call_inputs c len x1 b0 s) i)).
Lemma both_wire_eval x0 x1 a0 b0 i r : poly_eval (both_wire x0 x1 a0 b0 i) r =
  fadd (wire_at c len (repeat fzero (arity c)) x0 a0 s r i) (wire_at c len (repeat fzero (arity c)) x1 b0 s r i).
Proof.
  unfold both_wire, wire_at. fold l. apply adds_interp; [exact (Hl c len Hc Hlen)| |].
  - unfold add_shares. rewrite map_length, combine_length, !wire_values_length, !calls_length. pose proof (Hfit c len) as Hf. unfold l. lia.
  - apply add_shares_adds. rewrite !wire_values_length, !calls_length. reflexivity.
Qed.

Lemma split_accept x0 x1 a0 a1 b0 b1 : length x0 = len -> length x1 = len -> a1 <> b1 ->
  exists p0 p1, forall r, ~ on_domain c len r ->
  exists v0 v1, hist_query c len x0 p0 [r] [a0; a1] 2 = Some v0 /\ hist_query c len x1 p1 [r] [b0; b1] 2 = Some v1 /\ hist_decide c (add_shares v0 v1) = Some true.
Proof.
  intros L0 L1 Hne. set (n := gadget_poly_len c len). set (p := par_poly n (map (both_wire x0 x1 a0 b0) (seq 0 (2 * c)))).
  assert (Lp : length p = n).
  { unfold p. pose proof (pow2_pos (wire_log c len)) as Hp. apply (par_poly_length _ c (2 ^ wire_log c len - 1)); [intros i; unfold both_wire; rewrite interp_length; unfold l; lia|reflexivity]. }
  set (S := big (ncalls c len) (fun k => poly_eval p (fpow (root l) (k + 1)))).
  set (N := of_nat (ncalls c len)).
  assert (HN : fmul N (fsub b1 a1) <> fzero).
  { intros H. destruct (f_integral _ _ H) as [H0|H0]; [|apply Hne; symmetry; apply fsub_zero; exact H0].
    pose proof (hist_ok_bound len Hlen) as [Hp Hb]. revert H0. apply of_nat_ne_zero; [apply ncalls_pos; assumption|].
    pose proof (ncalls_le c len Hc). assert (2 ^ 32 < P)%Z by reflexivity. lia. }
  destruct (f_inverse _ HN) as (inv & Hinv).
  set (rest := fadd (fmul a1 S) (fadd (fmul (fmul a1 a1) (fsub (sum_f x0) s)) (fmul (fmul b1 b1) (fsub (sum_f x1) s)))).
  set (d := fmul inv (fneg rest)).
  set (q := d :: repeat fzero (n - 1)).
  assert (Lq : length q = length p) by (unfold q; cbn [length]; rewrite repeat_length, Lp; unfold n, gadget_poly_len; lia).
  pose proof (adds_of _ _ _ (zip_sub_shares p q Lq)) as Hadd. destruct Hadd as (A1 & A2 & A3). pose proof (conj A1 (conj A2 A3) : adds q (zip_sub p q) p) as Hadd.
  set (z := repeat fzero (arity c)). assert (Lz : length z = arity c) by apply repeat_length.
  exists (z ++ zip_sub p q), (z ++ q). intros r Hr. rewrite !query_eq, L0, L1, !app_length, Lz, A2, Lq, Lp.
  unfold proof_len. fold n. rewrite !Nat.eqb_refl. cbn [andb].
  destruct (feqb (fpow r (2 ^ wire_log c len)) fone) eqn:Ef; [apply feqb_eq in Ef; contradiction|].
  eexists. eexists. split; [reflexivity|]. split; [reflexivity|].
  unfold answer. fold s. destruct (proof_parts c z (zip_sub p q) Lz) as [-> ->]. destruct (proof_parts c z q Lz) as [-> ->].
  rewrite add_answers, decide_eq. f_equal. apply andb_true_iff. split; apply feqb_eq.
  - unfold valid. cbn [nth]. rewrite !(outs_sum c len Hc Hlen). fold l.
    assert (HS : S = fadd (big (ncalls c len) (fun k => poly_eval (zip_sub p q) (fpow (root l) (k + 1)))) (fmul N d)).
    { unfold S. rewrite (big_ext (ncalls c len) _ _ (fun k _ => adds_eval _ _ _ (fpow (root l) (k + 1)) Hadd)), big_add.
      rewrite (big_ext (ncalls c len) (fun i => poly_eval q _) (fun _ => d)) by (intros; apply constant_eval). rewrite big_const. fold N. ring. }
    rewrite (big_ext (ncalls c len) (fun k => poly_eval q _) (fun _ => d)) by (intros; apply constant_eval). rewrite big_const. fold N.
    set (T := big (ncalls c len) (fun k => poly_eval (zip_sub p q) _)) in *.
    assert (Hd : fmul (fmul N (fsub b1 a1)) d = fneg rest) by (unfold d; transitivity (fmul (fmul (fmul N (fsub b1 a1)) inv) (fneg rest)); [ring|rewrite Hinv; ring]).
    transitivity (fadd (fmul (fmul N (fsub b1 a1)) d) rest); [unfold rest; rewrite HS; ring|rewrite Hd; ring].
  - transitivity (poly_eval p r).
    + unfold p. rewrite par_poly_pairs. unfold pair_sum. apply big_ext. intros j _. cbn [Nat.add]. rewrite !both_wire_eval. reflexivity.
    + rewrite (adds_eval _ _ _ r Hadd). ring.
Qed.
End Len.

Section Run.
Variable E : env.
Hypothesis Hok : env_ok E.
Variable len : nat.
Hypothesis Hlen : hist_ok len = true.
Local Notation H := (with_hist E).

Lemma beta_share_length k : length (beta_share H len k) = len.
Proof. unfold beta_share, sum_vec. rewrite map_length, seq_length. reflexivity. Qed.

Theorem split_any bits cl x q0 q1 : 1 <= bits -> length (cl_seed0 cl) = 16 -> length (cl_seed1 cl) = 16 -> length (cl_alpha cl) = bits -> length x = len ->
  nth 1 (joint_of_first E cl q1) fzero <> nth 1 (joint_of_second E cl q0) fzero ->
  exists e, advertised E cl x q0 q1 e /\ good_entry H len bits e /\
  forall vk, ~ on_domain chunk len (query_point E len vk cl) -> report_verdict H len vk (e_r0 e) (e_r1 e) true.
Proof.
  intros Hb H0 H1 Ha Hx Hne. destruct (gen_total H (with_hist_ok E Hok) (cl_seed0 cl) (cl_seed1 cl) (cl_alpha cl) x H0 H1) as (k0 & k1 & Hg).
  destruct (gen_seeds H _ _ _ _ _ _ Hg) as [E0 E1].
  assert (J0 : joint_of_first E cl q1 = [nth 0 (joint_of_first E cl q1) fzero; nth 1 (joint_of_first E cl q1) fzero]) by (apply two; destruct Hok as (_ & _ & _ & Hf & _); apply Hf).
  assert (J1 : joint_of_second E cl q0 = [nth 0 (joint_of_second E cl q0) fzero; nth 1 (joint_of_second E cl q0) fzero]) by (apply two; destruct Hok as (_ & _ & _ & Hf & _); apply Hf).
  destruct (split_accept chunk len Hchunk Hlen (beta_share H len k0) (beta_share H len k1) (nth 0 (joint_of_first E cl q1) fzero) _ (nth 0 (joint_of_second E cl q0) fzero) _
             (beta_share_length k0) (beta_share_length k1) Hne) as (p0 & p1 & Hacc).
  eexists. split; [exists k0, k1, p0, p1; split; [exact Hg|reflexivity]|]. cbn [e_r0 e_r1 e_ok e_alpha e_beta]. split.
  - destruct (honest_wf H (with_hist_ok E Hok) _ _ _ _ (gen_honest H _ _ _ _ _ _ H0 H1 Hg)) as [W0 W1]. rewrite Ha in W0, W1.
    unfold good_entry. cbn [e_r0 e_r1 e_ok e_alpha e_beta]. split; [apply wf_of; exact W0|]. split; [apply wf_of; exact W1|]. intros _. split; [|split; [exact Ha|exact Hx]].
    exists (cl_seed0 cl), (cl_seed1 cl). auto.
  - intros vk Hr. unfold report_verdict, verifier_share, joint_rand, jr_part. cbn [fst snd]. rewrite E0, E1.
    change (xof_field H) with (xof_field E). change (xof_bytes H) with (xof_bytes E). change (flp_joint_rand_len H len) with 2.
    fold (joint_of_first E cl q1) (joint_of_second E cl q0). rewrite J0, J1.
    change (query_rand H len vk (cl_nonce cl)) with (query_rand (with_hist E) len vk (cl_nonce cl)). rewrite (query_one E Hok len vk (cl_nonce cl)).
    apply Hacc. exact Hr.
Qed.

(** ... and counted as they are *)
Theorem split_run bits vk cl x q0 q1 e L fuel cfg s0 s1 : advertised E cl x q0 q1 e -> good_entry H len bits e -> report_verdict H len vk (e_r0 e) (e_r1 e) true ->
  Forall (good_entry H len bits) L -> Forall (fun e => report_verdict H len vk (e_r0 e) (e_r1 e) (e_ok e)) L ->
  (Z.of_nat (S (length L)) < 2 ^ 64)%Z -> cfg_hist cfg = len -> cfg_bits cfg = Some bits -> 0 < cfg_query_batch cfg -> 2 <= bits -> S (length L) <= fuel ->
  uploaded true len bits vk (map e_r0 (e :: L)) s0 -> uploaded false len bits vk (map e_r1 (e :: L)) s1 ->
  (forall l, 1 <= l -> l + 1 < bits -> exists p, length p = l /\ heavy (threshold cfg) (e :: L) p = true) ->
  exists t0 t1, run_whh fuel H cfg s0 s1 (S (length L)) =
    Ret (t0, t1, map (exact_result (e :: L) len) (filter (heavy (threshold cfg) (e :: L)) (all_paths bits))).
Proof.
  clear Hlen. intros He Hge Hve Hg Hv Hn C1 C2 C3 Hb Hfu U0 U1 Hh.
  assert (Hoke : e_ok e = true) by (destruct He as (k0 & k1 & p0 & p1 & _ & ->); reflexivity).
  apply (run_whh_any H len bits (e :: L) vk fuel cfg s0 s1); try assumption.
  - constructor; assumption.
  - lia.
  - intros _. split; [cbn [existsb]; rewrite Hoke; reflexivity|]. constructor; [rewrite Hoke; exact Hve|exact Hv].
  - intros Hz. lia.
Qed.

(** with the right parts the two joint randomness values are the prover's *)
Theorem split_right cl : joint_of_first E cl (xof_bytes E (cl_seed1 cl) (repeat 0%N 16) (1%N :: cl_nonce cl) 16) = prover_joint_rand H len cl /\
  joint_of_second E cl (xof_bytes E (cl_seed0 cl) (repeat 0%N 16) (0%N :: cl_nonce cl) 16) = prover_joint_rand H len cl.
Proof. split; reflexivity. Qed.

(** if both aggregators use the same joint randomness, acceptance is acceptance in the sense of C74 *)
Theorem same_joint vk nonce k0 k1 p0 p1 jr0 jr1 j0 j1 : joint_rand H true len nonce k0 jr0 = [j0; j1] -> joint_rand H false len nonce k1 jr1 = [j0; j1] ->
  report_verdict H len vk (RSMastic nonce k0 p0 jr0) (RSMastic nonce k1 p1 jr1) true ->
  accepted chunk len (add_shares (beta_share H len k0) (beta_share H len k1)) (add_shares p0 p1) j0 j1 (nth 0 (query_rand H len vk nonce) fzero).
Proof.
  clear Hlen. intros J0 J1 (v0 & v1 & V0 & V1 & D). unfold verifier_share in V0, V1. rewrite J0 in V0. rewrite J1 in V1.
  rewrite (query_one E Hok len vk nonce) in V0, V1.
  assert (Hp : length p0 = length p1).
  { change (flp_query H) with (hist_query chunk) in V0, V1. rewrite query_eq in V0, V1. rewrite beta_share_length, Nat.eqb_refl in V0, V1. cbn [andb] in V0, V1.
    destruct (Nat.eqb_spec (length p0) (proof_len chunk len)); [|discriminate V0]. destruct (Nat.eqb_spec (length p1) (proof_len chunk len)); [|discriminate V1]. lia. }
  exists (beta_share H len k0), (beta_share H len k1), p0, p1. split; [apply add_shares_of; rewrite !beta_share_length; reflexivity|]. split; [apply add_shares_of; exact Hp|].
  exists v0, v1. split; [exact V0|]. split; [exact V1|exact D].
Qed.
End Run.
