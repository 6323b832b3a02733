(** Prio3 for the histogram type: runs of the preparation, and of plain metrics. *)
From Verif Require Import Base BaseFacts Field Util UtilFacts Env Collect Server Driver Modes PrimeFacts Histogram Prio3 PolyFacts HistFacts HistSound HistRun HistSplit
  SpecPrg SpecVidpf SpecCollect SpecMetrics SpecWhh SpecModes SpecHist SpecPrio3 FlpFacts VidpfFacts ModesFacts PmMain Prio3Facts.

Section Len.
Variable E : env.
Hypothesis Hok : env_ok E.
Variable len : nat.
Hypothesis Hlen : hist_ok len = true.
Local Notation c := (chunk_length_plain len).

(** *** honest uploads *)
Lemma leader_shares cl : shares_of (p3_leader_x E len cl) (p3_helper_x E len cl) (one_hot len (pc_bucket cl)).
Proof. apply shares_swap, zip_sub_shares. rewrite one_hot_length. apply (xf_length E Hok). Qed.
Lemma honest_run vk cl : p3_fair E len vk cl -> exists pub i0 i1, p3_shard E len (pc_bucket cl) (pc_nonce cl) (pc_rand cl) = Some (pub, (i0, i1)) /\ length i1 = 48 /\
  p3_run (p3_env E) len vk (RSPrio3 (pc_nonce cl) pub i0) (RSPrio3 (pc_nonce cl) pub i1) (Some (one_hot len (pc_bucket cl))).
Proof.
  intros (Hb & Hr & Hoff). destruct (shard_spec E Hok len Hlen cl Hb Hr) as (proof & Hp & Hl & Hsh). do 3 eexists. split; [exact Hsh|].
  destruct (seeds_length cl Hr) as (S1 & S2 & S3 & S4 & S5). split; [rewrite !app_length; lia|].
  destruct (upload_run E Hok len vk cl (p3_seed cl) proof _ _ Hr Hoff S1 Hl eq_refl eq_refl) as (v0 & v1 & st0 & sh0 & st1 & sh1 & V0 & V1 & I0 & I1 & D0 & D1 & M & N0 & N1).
  assert (Hd : decides c len (p3_leader_x E len cl) (p3_helper_x E len cl) (zip_sub proof (p3_helper_proof E len (p3_proof_seed cl))) (p3_helper_proof E len (p3_proof_seed cl)) (p3_joint E len cl) [p3_point E vk cl] true).
  { unfold p3_proof in Hp. unfold p3_joint in *. rewrite (joint_len E Hok) in Hp |- *. apply (complete c len (c_pos len Hlen) Hlen _ _ _ _ _ _ _ _ _ _ (one_hot_unit len _ Hb) Hp Hoff (leader_shares cl)).
    apply shares_swap, zip_sub_shares. rewrite Hl. apply (xf_length E Hok). }
  destruct Hd as (w0 & w1 & W0 & W1 & Hd). rewrite V0 in W0. injection W0 as <-.
  change (p3_joint E len cl) with (p3_joint_rand E (p3_joint_seed E (p3_leader_part E len cl) (p3_part E 1 (p3_helper_blind cl) (pc_nonce cl) (p3_helper_share E len (p3_seed cl))))) in W1.
  change (p3_helper_x E len cl) with (p3_helper_share E len (p3_seed cl)) in W1. rewrite V1 in W1. injection W1 as <-. rewrite Hd in M.
  do 10 eexists. split; [reflexivity|]. split; [reflexivity|]. split; [exact I0|]. split; [exact I1|]. split; [exact D0|]. split; [exact D1|].
  do 3 eexists. split; [exact M|]. split; [change (p3_next (p3_env E)) with p3_concrete_next; rewrite N0; unfold p3_helper_x; rewrite (proj2 (bytes_eqb_iff _ _) eq_refl); reflexivity|].
  split; [change (p3_next (p3_env E)) with p3_concrete_next; rewrite N1, (proj2 (bytes_eqb_iff _ _) eq_refl); reflexivity|].
  split; [apply leader_length, Hok|]. split; [apply (xf_length E Hok)|]. split; [apply one_hot_length|]. intros j _.
  destruct (adds_of _ _ _ (leader_shares cl)) as (_ & _ & H). symmetry. apply H.
Qed.
(** *** spoilt uploads *)
Lemma spoil_app a b : a <> [] -> spoil (a ++ b) = spoil a ++ b.
Proof. destruct a; [congruence|reflexivity]. Qed.
Lemma spoil_length a : length (spoil a) = length a.
Proof. destruct a; reflexivity. Qed.
Lemma spoilt_run vk cl pub i0 i1 : p3_fair E len vk cl -> ~ p3_missed E len cl (p3_point E vk cl) -> p3_shard E len (pc_bucket cl) (pc_nonce cl) (pc_rand cl) = Some (pub, (i0, i1)) ->
  p3_run (p3_env E) len vk (RSPrio3 (pc_nonce cl) pub i0) (RSPrio3 (pc_nonce cl) pub (spoil i1)) None.
Proof.
  intros (Hb & Hr & Hoff) Hm Hs. destruct (shard_spec E Hok len Hlen cl Hb Hr) as (proof & Hp & Hl & Hsh). rewrite Hs in Hsh. injection Hsh as -> -> ->.
  destruct (seeds_length cl Hr) as (S1 & S2 & S3 & S4 & S5). rewrite spoil_app by (intros H0; rewrite H0 in S1; discriminate S1).
  destruct (upload_run E Hok len vk cl (spoil (p3_seed cl)) proof _ _ Hr Hoff (eq_trans (spoil_length _) S1) Hl eq_refl eq_refl) as (v0 & v1 & st0 & sh0 & st1 & sh1 & V0 & V1 & I0 & I1 & D0 & D1 & M & N0 & N1).
  do 10 eexists. split; [reflexivity|]. split; [reflexivity|]. split; [exact I0|]. split; [exact I1|]. split; [exact D0|]. split; [exact D1|].
  left. change (p3_msg (p3_env E)) with (p3_concrete_msg E). rewrite M. destruct (hist_decide c (add_shares v0 v1)) as [[|]|] eqn:Hd; try reflexivity.
  exfalso. apply Hm. exists proof, v0, v1. split; [exact Hp|]. split; [exact V0|]. split; [exact V1|exact Hd].
Qed.

Lemma fair_good_choice vk clients ch : Forall (p3_fair E len vk) clients -> p3_fair_choice E len vk clients ch -> good_pm_choice (p3_env E) (p3_shard E) len vk clients ch.
Proof.
  intros HF (Hi & Hm). destruct (nth_error clients (ch_idx ch)) as [cl|] eqn:Ecl; [|apply nth_error_None in Ecl; lia].
  assert (Hf : p3_fair E len vk cl) by (rewrite Forall_forall in HF; apply HF; apply nth_error_In in Ecl; exact Ecl).
  destruct (honest_run vk cl Hf) as (pub & i0 & i1 & Hs & Hl & Hrun). exists cl, pub, i0, i1. split; [exact Ecl|]. split; [apply Hf|]. split; [exact Hs|].
  split; [intros _ H0; rewrite H0 in Hl; discriminate Hl|]. destruct (ch_malicious ch) eqn:Em; [|exact Hrun].
  apply spoilt_run; auto.
Qed.
Theorem p3_main vk clients chs fuel cfg s0 s1 : Forall (p3_fair E len vk) clients -> Forall (p3_fair_choice E len vk clients) chs ->
  cfg_hist cfg = len -> 0 < cfg_query_batch cfg -> 0 < cfg_add_batch cfg -> clients <> [] -> length chs <= fuel -> (Z.of_nat (length chs) < 2 ^ 64)%Z ->
  s_poison s0 = false -> s_id s0 = 0%Z -> s_poison s1 = false -> s_id s1 = 1%Z ->
  exists t0 t1, main_pm fuel (p3_env E) (p3_shard E) cfg clients vk chs s0 s1 =
    Ret (t0, t1, map (vote_histogram len) (pieces (cfg_query_batch cfg) (pm_votes clients chs))).
Proof.
  intros HF HC. intros. apply main_pm_ok; try assumption.
  - intros cl Hin. rewrite Forall_forall in HF. destruct (honest_run vk cl (HF cl Hin)) as (pub & i0 & i1 & Hs & _). rewrite Hs. discriminate.
  - eapply Forall_impl; [|exact HC]. intros ch Hch. apply fair_good_choice; assumption.
Qed.

(** *** few query points miss a spoilt upload *)
(** an honest proof is zero at the points of the calls *)
Lemma proof_zero cl proof k : pc_bucket cl < len -> p3_proof E len cl proof -> k < ncalls c len -> poly_eval (skipn (arity c) proof) (fpow (root (wire_log c len)) (k + 1)) = fzero.
Proof.
  intros Hb Hp Hk. pose proof (c_pos len Hlen) as Hc.
  unfold p3_proof, p3_joint in Hp. rewrite (joint_len E Hok) in Hp. fold (p3_joint E len cl) in Hp. set (a0 := nth 0 _ fzero) in Hp. set (pr := xof_field E _ _ _ _) in Hp. clearbody pr. rewrite (prove_eq c len) in Hp.
  destruct (_ =? _) in Hp; [|discriminate Hp]. destruct (Nat.eqb_spec (length pr) (arity c)) as [Hpr|]; [|discriminate Hp]. cbn [andb] in Hp. injection Hp as Hp.
  rewrite <- Hp. destruct (proof_parts c pr (gadget_poly c len pr (one_hot len (pc_bucket cl)) a0) Hpr) as [_ ->].
  rewrite (gadget_poly_eval c len). unfold pair_sum. apply big_zero. intros j Hj. rewrite !(wire_poly_at c len Hc Hlen) by (exact Hk || unfold arity; lia). unfold call_at. cbv zeta.
  assert (E0 : Nat.even (2 * j) = true) by (apply Nat.even_spec; exists j; reflexivity). assert (E1 : Nat.even (2 * j + 1) = false) by (rewrite Nat.even_add, E0; reflexivity).
  rewrite E0, E1. replace (2 * j / 2) with j by (rewrite Nat.mul_comm, Nat.div_mul by lia; reflexivity).
  replace ((2 * j + 1) / 2) with j by (rewrite Nat.add_comm, Nat.mul_comm, Nat.div_add by lia; reflexivity).
  destruct (one_hot_unit len (pc_bucket cl) Hb) as (Hu & m & Hm & Hun). destruct (le_lt_dec len (c * k + j)) as [Hi|Hi]; [rewrite nth_overflow by lia; ring|].
  rewrite (Hun _ Hi). destruct (_ =? m); ring.
Qed.
(** if the helper still gets the right joint randomness, the spoilt share must have the right sum *)
Lemma missed_sum cl r : pc_bucket cl < len -> p3_wrong_joint E len cl = p3_joint E len cl -> p3_missed E len cl r ->
  nth 1 (p3_joint E len cl) fzero = fzero \/ sum_f (p3_wrong_x E len cl) = sum_f (p3_helper_x E len cl).
Proof.
  intros Hb He (proof & v0 & v1 & Hp & V0 & V1 & Hd). pose proof (c_pos len Hlen) as Hc. rewrite He in V1.
  set (p1 := p3_helper_proof E len (p3_proof_seed cl)) in *.
  assert (Lp1 : length p1 = length proof).
  { destruct (proof_exists E Hok len Hlen cl) as (proof' & Hp' & Hlp). unfold p3_proof in Hp, Hp'. rewrite Hp in Hp'. injection Hp' as <-. rewrite Hlp. apply (xf_length E Hok). }
  pose proof (adds_of _ _ _ (shares_swap _ _ _ (zip_sub_shares proof p1 Lp1))) as Hadd. set (p0 := zip_sub proof p1) in *.
  unfold p3_joint in V0, V1 |- *. rewrite (joint_len E Hok) in V0, V1. fold (p3_joint E len cl) in V0, V1 |- *. set (j0 := nth 0 (p3_joint E len cl) fzero) in *. set (j1 := nth 1 (p3_joint E len cl) fzero) in *.
  rewrite query_eq in V0, V1. destruct (_ && _) in V0; [|discriminate V0]. destruct (_ && _) in V1; [|discriminate V1]. destruct (feqb _ fone); [discriminate|].
  injection V0 as <-. injection V1 as <-. unfold answer in Hd. rewrite add_answers, decide_eq in Hd. injection Hd as Hd. apply andb_true_iff in Hd. destruct Hd as [Hd _]. apply feqb_eq in Hd.
  unfold valid in Hd. cbn [nth] in Hd. rewrite !(outs_sum c len Hc Hlen) in Hd.
  assert (Hz : fadd (big (ncalls c len) (fun k => poly_eval (skipn (arity c) p0) (fpow (root (wire_log c len)) (k + 1)))) (big (ncalls c len) (fun k => poly_eval (skipn (arity c) p1) (fpow (root (wire_log c len)) (k + 1)))) = fzero).
  { rewrite <- big_add. apply big_zero. intros k Hk. rewrite <- (adds_eval _ _ _ _ (adds_skipn _ _ _ (arity c) Hadd)). apply (proof_zero cl proof k Hb Hp Hk). }
  assert (Hx : fadd (sum_f (p3_leader_x E len cl)) (sum_f (p3_helper_x E len cl)) = fone).
  { rewrite <- (adds_sum _ _ _ (adds_of _ _ _ (leader_shares cl))). destruct (one_hot_unit len (pc_bucket cl) Hb) as (Hu & m & Hm & Hun).
    rewrite sum_f_big, Hu, (big_ext _ _ _ Hun), (big_single len m (fun _ => fone)) by exact Hm. reflexivity. }
  set (B0 := big (ncalls c len) (fun k => poly_eval (skipn (arity c) p0) _)) in *. set (B1 := big (ncalls c len) (fun k => poly_eval (skipn (arity c) p1) _)) in *. set (s := finv (of_nat 2)) in *. pose proof half_half as Hh. fold s in Hh.
  set (X0 := sum_f (p3_leader_x E len cl)) in *. set (X1 := sum_f (p3_helper_x E len cl)) in *. set (Y := sum_f (p3_wrong_x E len cl)) in *.
  assert (Hm : fmul (fmul j1 j1) (fsub Y X1) = fzero).
  { transitivity (fsub (fmul (fmul j1 j1) (fsub (fadd X0 Y) fone)) (fmul (fmul j1 j1) (fsub (fadd X0 X1) fone))); [ring|]. rewrite Hx, Hh. rewrite <- Hd.
    transitivity (fsub (fadd (fadd (fmul j1 B0) (fmul (fmul j1 j1) (fsub X0 s))) (fadd (fmul j1 B1) (fmul (fmul j1 j1) (fsub Y s)))) (fmul j1 (fadd B0 B1))); [ring|rewrite Hz; ring]. }
  destruct (f_integral _ _ Hm) as [H0|H0]; [left; destruct (f_integral _ _ H0); assumption|right; apply fsub_zero; exact H0].
Qed.
Lemma missed_few cl S : pc_bucket cl < len ->
  (exists k, k < ncalls c len /\ p3_chunk c (p3_leader_x E len cl) (p3_wrong_x E len cl) (nth 0 (p3_joint E len cl) fzero) (nth 0 (p3_wrong_joint E len cl) fzero) k <> fzero) ->
  NoDup S -> (forall r, In r S -> p3_missed E len cl r) -> length S <= 2 * (2 ^ wire_log c len - 1).
Proof.
  intros Hb (k & Hk & Hne) HS H. pose proof (c_pos len Hlen) as Hc. set (l := wire_log c len).
  destruct (proof_exists E Hok len Hlen cl) as (proof & Hp & Hlp).
  set (p1 := p3_helper_proof E len (p3_proof_seed cl)) in *. assert (Lp1 : length p1 = length proof) by (rewrite Hlp; apply (xf_length E Hok)).
  pose proof (adds_of _ _ _ (shares_swap _ _ _ (zip_sub_shares proof p1 Lp1))) as Hadd. set (p0 := zip_sub proof p1) in *.
  set (x0 := p3_leader_x E len cl) in *. set (x1 := p3_wrong_x E len cl) in *.
  set (a0 := nth 0 (p3_joint E len cl) fzero) in *. set (b0 := nth 0 (p3_wrong_joint E len cl) fzero) in *. set (s := finv (of_nat 2)).
  set (W := fun i => interpolate l (add_shares (wire_values (firstn (arity c) p0) (call_inputs c len x0 a0 s) i) (wire_values (firstn (arity c) p1) (call_inputs c len x1 b0 s) i))).
  assert (HWl : forall i, length (add_shares (wire_values (firstn (arity c) p0) (call_inputs c len x0 a0 s) i) (wire_values (firstn (arity c) p1) (call_inputs c len x1 b0 s) i)) <= 2 ^ l).
  { intros i. unfold add_shares. rewrite map_length, combine_length, !wire_values_length, !calls_length. pose proof (Hfit c len) as Hf. unfold l. lia. }
  assert (HW : forall i r, poly_eval (W i) r = fadd (wire_at c len (firstn (arity c) p0) x0 a0 s r i) (wire_at c len (firstn (arity c) p1) x1 b0 s r i)).
  { intros i r. unfold W, wire_at. fold l. apply adds_interp; [exact (Hl c len Hc Hlen)|apply HWl|]. apply add_shares_adds. rewrite !wire_values_length, !calls_length. reflexivity. }
  set (g := par_poly (gadget_poly_len c len) (map W (seq 0 (2 * c)))). set (p := skipn (arity c) proof).
  assert (Lg : length g = gadget_poly_len c len).
  { unfold g. pose proof (pow2_pos l) as Hpos. apply (par_poly_length _ c (2 ^ l - 1)); [intros i; unfold W; rewrite interp_length; lia|reflexivity]. }
  assert (Lp : length p = gadget_poly_len c len) by (unfold p; rewrite skipn_length, Hlp; unfold proof_len; lia).
  set (q := poly_add p (map fneg g)).
  assert (Lq : length q = gadget_poly_len c len) by (unfold q; rewrite add_length, map_length, Lp, Lg; lia).
  assert (Hev : forall y, poly_eval q y = fsub (poly_eval p y) (poly_eval g y)) by (intros y; unfold q; rewrite eval_add, eval_neg; ring).
  assert (Hg : forall y, poly_eval g y = pair_sum c (fun i => poly_eval (W i) y)) by (intros y; unfold g; rewrite par_poly_pairs; reflexivity).
  assert (Hlt : length S < length q); [|rewrite Lq in Hlt; unfold gadget_poly_len in Hlt; fold l in Hlt; unfold l in *; lia].
  apply few_roots; [exact HS| |].
  - intros r Hr. destruct (H r Hr) as (proof' & v0 & v1 & Hp' & V0 & V1 & Hd). unfold p3_proof in Hp, Hp'. rewrite Hp in Hp'. injection Hp' as <-. fold p1 p0 x0 x1 in V0, V1.
    unfold p3_joint in V0. unfold p3_wrong_joint in V1. rewrite (joint_len E Hok) in V0, V1. fold (p3_joint E len cl) in V0. fold (p3_wrong_joint E len cl) in V1. fold a0 in V0. fold b0 in V1.
    rewrite query_eq in V0, V1. destruct (_ && _) in V0; [|discriminate V0]. destruct (_ && _) in V1; [|discriminate V1]. destruct (feqb _ fone); [discriminate|].
    injection V0 as <-. injection V1 as <-. unfold answer in Hd. rewrite add_answers, decide_eq in Hd. injection Hd as Hd. apply andb_true_iff in Hd. destruct Hd as [_ Hd]. apply feqb_eq in Hd.
    rewrite Hev, Hg. fold s in Hd. rewrite <- (adds_eval _ _ _ r (adds_skipn _ _ _ (arity c) Hadd)) in Hd. fold p in Hd. rewrite <- Hd.
    assert (He : pair_sum c (fun i => poly_eval (W i) r) = pair_sum c (fun i => fadd (wire_at c len (firstn (arity c) p0) x0 a0 s r i) (wire_at c len (firstn (arity c) p1) x1 b0 s r i))).
    { unfold pair_sum. apply big_ext. intros j _. rewrite !HW. reflexivity. }
    rewrite He. ring.
  - exists (fpow (root l) (k + 1)). rewrite Hev. intros Hz. apply fsub_zero in Hz. apply Hne.
    pose proof (proof_zero cl proof k Hb Hp Hk : poly_eval p (fpow (root l) (k + 1)) = fzero) as Hp0.
    rewrite <- Hp0, Hz, Hg. unfold p3_chunk, pair_sum. change (fold_right fadd fzero) with sum_f. rewrite sum_f_map. apply big_ext. intros j Hj. cbv zeta. cbn [Nat.add].
    unfold W. rewrite !(interp_value l _ (k + 1) (Hl c len Hc Hlen) (HWl _)) by (pose proof (Hfit c len); unfold l; lia).
    assert (Hn : forall i, nth (k + 1) (add_shares (wire_values (firstn (arity c) p0) (call_inputs c len x0 a0 s) i) (wire_values (firstn (arity c) p1) (call_inputs c len x1 b0 s) i)) fzero =
      fadd (nth (k + 1) (wire_values (firstn (arity c) p0) (call_inputs c len x0 a0 s) i) fzero) (nth (k + 1) (wire_values (firstn (arity c) p1) (call_inputs c len x1 b0 s) i) fzero)).
    { intros i. apply add_shares_adds. rewrite !wire_values_length, !calls_length. reflexivity. }
    rewrite !Hn, !wire_values_nth by (exact Hk || unfold arity; lia). unfold call_at. cbv zeta.
    assert (E0 : Nat.even (2 * j) = true) by (apply Nat.even_spec; exists j; reflexivity). assert (E1 : Nat.even (2 * j + 1) = false) by (rewrite Nat.even_add, E0; reflexivity).
    rewrite E0, E1. replace (2 * j / 2) with j by (rewrite Nat.mul_comm, Nat.div_mul by lia; reflexivity).
    replace ((2 * j + 1) / 2) with j by (rewrite Nat.add_comm, Nat.mul_comm, Nat.div_add by lia; reflexivity). rewrite (Nat.mul_comm k c).
    set (u := nth (c * k + j) x0 fzero). set (v := nth (c * k + j) x1 fzero). rewrite half_half. fold s. ring.
Qed.

(** *** what both aggregators finish *)
Theorem finished_accepted vk nonce pub0 pub1 i0 i1 x0 x1 : p3_finished E len vk nonce pub0 pub1 i0 i1 x0 x1 ->
  exists seed p0 p1, accepted c len (add_shares x0 x1) (add_shares p0 p1) (nth 0 (p3_joint_rand E seed) fzero) (nth 1 (p3_joint_rand E seed) fzero) (nth 0 (p3_query_rand E vk nonce) fzero) /\
    exists b0 b1, p3_input E len 0 i0 = Some (x0, p0, b0) /\ p3_input E len 1 i1 = Some (x1, p1, b1) /\
    seed = p3_joint_seed E (p3_part E 0 b0 nonce x0) (p3_part E 1 b1 nonce x1).
Proof.
  clear Hlen. intros (st0 & sh0 & st1 & sh1 & m & I0 & I1 & M & N0 & N1). apply (init_spec E len) in I0. apply (init_spec E len) in I1.
  destruct I0 as (P0 & y0 & p0 & b0 & v0 & In0 & Q0 & -> & ->). destruct I1 as (P1 & y1 & p1 & b1 & v1 & In1 & Q1 & -> & ->).
  destruct (query_length _ _ _ _ _ _ _ _ Q0) as (X0 & L0 & V0). destruct (query_length _ _ _ _ _ _ _ _ Q1) as (X1 & L1 & V1).
  rewrite (msg_spec E len) in M by (assumption || apply (part_length E Hok)). destruct (hist_decide c (add_shares v0 v1)) as [[|]|] eqn:Hd; try discriminate M. injection M as <-.
  rewrite (next_spec len) in N0, N1 by (assumption || apply (own_seed_length E Hok)).
  destruct (bytes_eqb _ _) eqn:B0 in N0; [|discriminate N0]. destruct (bytes_eqb _ _) eqn:B1 in N1; [|discriminate N1]. apply bytes_eqb_iff in B0, B1.
  injection N0 as <-. injection N1 as <-. rewrite B0 in Q0. rewrite B1 in Q1. change (N.of_nat 0) with 0%N in *. change (N.of_nat 1) with 1%N in *.
  exists (p3_joint_seed E (p3_part E 0 b0 nonce y0) (p3_part E 1 b1 nonce y1)), p0, p1. split; [|exists b0, b1; auto].
  exists y0, y1, p0, p1. split; [apply add_shares_of; lia|]. split; [apply add_shares_of; lia|]. exists v0, v1. rewrite <- (joint_len E Hok), <- (query_len E Hok). auto.
Qed.
(** the bytes an input share is decoded from *)
Lemma enc_dec_fld b a : is_bytes b -> length b = 16 -> dec_fld b = Some a -> get_encoded a = b.
Proof.
  clear Hok Hlen len. intros Hb Hl. unfold dec_fld. destruct (Z.ltb_spec (Z.of_N (le_num b)) P) as [Hlt|]; [|discriminate]. intros [= <-]. unfold get_encoded, of_N.
  rewrite fval_of_Z, Z.mod_small by lia. rewrite N2Z.id, <- Hl. apply le_bytes_num. exact Hb.
Qed.
Lemma enc_dec n : forall b l, is_bytes b -> 16 * n <= length b -> dec_vec n b = Some l -> flat_map get_encoded l ++ skipn (16 * n) b = b /\ length l = n.
Proof.
  clear Hok Hlen len. induction n as [|n IH]; intros b l Hb Hl Hd; cbn [dec_vec] in Hd; [injection Hd as <-; split; reflexivity|].
  destruct (dec_fld (firstn 16 b)) as [a|] eqn:Ha; [|discriminate Hd]. destruct (dec_vec n (skipn 16 b)) as [l'|] eqn:Hl'; [|discriminate Hd]. injection Hd as <-.
  apply (IH _ _) in Hl'; [|apply Forall_forall; intros x Hx; apply (proj1 (Forall_forall _ _) Hb); rewrite <- (firstn_skipn 16 b); apply in_or_app; right; exact Hx|rewrite skipn_length; lia].
  destruct Hl' as [He Hn]. split; [|cbn [length]; rewrite Hn; reflexivity].
  apply enc_dec_fld in Ha; [|apply Forall_forall; intros x Hx; apply (proj1 (Forall_forall _ _) Hb); rewrite <- (firstn_skipn 16 b); apply in_or_app; left; exact Hx|rewrite firstn_length; lia].
  cbn [flat_map]. rewrite Ha, <- app_assoc. replace (16 * S n) with (16 * n + 16) by lia. rewrite <- skipn_skipn'. rewrite He. apply firstn_skipn.
Qed.
Lemma leader_decoded i0 x p b : is_bytes i0 -> p3_input E len 0 i0 = Some (x, p, b) -> leader_message len i0 x p b.
Proof.
  clear Hlen. intros Hb. unfold p3_input. destruct (Nat.eqb_spec (length i0) (16 * len + (16 * proof_len c len + 16))) as [Hl|]; [cbn [negb]|discriminate].
  destruct (dec_vec len i0) as [x'|] eqn:Hx; [|discriminate]. destruct (dec_vec (proof_len c len) (skipn (16 * len) i0)) as [p'|] eqn:Hp; [|discriminate]. intros [= <- <- <-].
  apply enc_dec in Hx; [|exact Hb|lia]. apply enc_dec in Hp; [|apply Forall_forall; intros y Hy; apply (proj1 (Forall_forall _ _) Hb); rewrite <- (firstn_skipn (16 * len) i0); apply in_or_app; right; exact Hy|rewrite skipn_length; lia].
  destruct Hx as [X1 X2], Hp as [P1 P2]. split; [|split; [exact X2|split; [exact P2|apply piece_length; lia]]].
  unfold piece. rewrite firstn_all2 by (rewrite skipn_length; lia). rewrite <- X1 at 1. f_equal. rewrite (Nat.add_comm (16 * len)), <- skipn_skipn'. symmetry. exact P1.
Qed.
Lemma helper_decoded i1 x p b : p3_input E len 1 i1 = Some (x, p, b) -> helper_message E len i1 x p b.
Proof.
  clear Hlen. unfold p3_input. destruct (Nat.eqb_spec (length i1) 48) as [Hl|]; [cbn [negb]|discriminate]. intros [= <- <- <-].
  exists (piece 0 16 i1), (piece 16 16 i1). split; [|split; [apply piece_length; lia|split; [apply piece_length; lia|split; [apply piece_length; lia|split; reflexivity]]]].
  unfold piece. cbn [skipn]. rewrite (firstn_all2 (skipn 32 i1)) by (rewrite skipn_length; lia). change 32 with (16 + 16) at 1. rewrite <- skipn_skipn', firstn_skipn, firstn_skipn. reflexivity.
Qed.
Theorem finished_bytes vk nonce pub0 pub1 i0 i1 x0 x1 : is_bytes i0 -> p3_finished E len vk nonce pub0 pub1 i0 i1 x0 x1 ->
  exists p0 p1 b0 b1, leader_message len i0 x0 p0 b0 /\ helper_message E len i1 x1 p1 b1 /\ let seed := bound_seed E nonce b0 b1 x0 x1 in
    accepted c len (add_shares x0 x1) (add_shares p0 p1) (bound_joint E seed 0) (bound_joint E seed 1) (bound_point E vk nonce).
Proof.
  intros Hb H. destruct (finished_accepted _ _ _ _ _ _ _ _ H) as (seed & p0 & p1 & Ha & b0 & b1 & I0 & I1 & ->).
  exists p0, p1, b0, b1. split; [apply leader_decoded; assumption|]. split; [apply helper_decoded; exact I1|]. exact Ha.
Qed.
End Len.
