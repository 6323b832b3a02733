(** The FLP check of one report: it depends on that report only, and accepts honest ones (C18). *)
From Verif Require Import Base BaseFacts Field Util UtilFacts Env Prg PrgFacts PrgSpecFacts2 Vidpf SpecVidpf SpecTree VidpfFacts VidpfEvalFacts VidpfTreeFacts VidpfTreeFacts3 VidpfTreeFacts4
  Merkle Collect Server Driver SpecCollect SpecServer SpecDriver SpecCheck SpecLevel SpecWhh CollectFacts CollectInv ServerFacts DriverFacts DriverPropFacts RefuteFacts MerkleFacts LevelFacts PairFacts WhhFacts WhhFacts2.

Section Flp.
Variable E : env.
Hypothesis Hok : env_ok E.

(** an aggregator that has just built the root *)
Definition at_root (c : coll) : Prop := fronts E (c_len c) (c_reports c) [[]] (c_frontier c) /\ defined_at E (c_len c) (c_reports c) [].

Lemma rfq_one c i h r : at_root c -> defined_at E (c_len c) (c_reports c) [false] -> defined_at E (c_len c) (c_reports c) [true] ->
  nth_error (c_reports c) i = Some (h, r) ->
  run_flp_queries E c i (i + 1) = let! v := unwrap (verifier_share E (c_sid c =? 0)%Z (c_len c) (c_vk c) r) in Ret [v].
Proof.
  intros [Hf Hd0] Hdl Hdr Hr. rewrite run_flp_queries_split.
  assert (Hn : exists n0, c_frontier c = [n0] /\ node_is E (c_len c) (c_reports c) [] n0).
  { inversion Hf as [|p n ps f Hn Hrest Hp Hfe]. inversion Hrest. subst. eauto. }
  destruct Hn as (n0 & Hfr & Hn0). assert (Hi : i < length (c_reports c)) by (apply nth_error_Some; congruence).
  assert (Hpre : flp_pre E c = Ret (length (c_reports c), mknode E (c_len c) (c_reports c) [false], mknode E (c_len c) (c_reports c) [true])).
  { unfold flp_pre. rewrite Hfr. cbn [index nth_error bind length]. rewrite (proj1 Hn0). rewrite (proj2 (assert_true _)) by reflexivity. cbn [bind].
    rewrite debug_assert_true by reflexivity. cbn [bind].
    rewrite (proj2 (make_tree_node_iff E c [] n0 false _ Hn0 Hd0) (conj Hdl eq_refl)). cbn [bind].
    rewrite (proj2 (make_tree_node_iff E c [] n0 true _ Hn0 Hd0) (conj Hdr eq_refl)). cbn [bind].
    destruct Hn0 as (_ & _ & ->). rewrite debug_assert_true by (cbn [mknode tn_values]; unfold words_of; rewrite !map_length; apply Nat.eqb_refl).
    cbn [bind]. unfold words_of. rewrite map_length. reflexivity. }
  rewrite Hpre. cbn [bind]. rewrite filter_range by lia. replace (Nat.min (i + 1) (0 + length (c_reports c)) - i) with 1 by lia. cbn [seq mapM].
  assert (Hone : flp_one E c (mknode E (c_len c) (c_reports c) [false]) (mknode E (c_len c) (c_reports c) [true]) i = unwrap (verifier_share E (c_sid c =? 0)%Z (c_len c) (c_vk c) r)).
  { unfold flp_one. cbn [mknode tn_values]. unfold words_of.
    rewrite (index_some _ i (word_at E (key_of r) (c_len c) [false])) by (rewrite nth_error_map', Hr; reflexivity).
    rewrite (index_some _ i (word_at E (key_of r) (c_len c) [true])) by (rewrite nth_error_map', Hr; reflexivity). cbn [bind].
    unfold flp_query_rand, flp_joint_rand. rewrite (index_some _ _ _ Hr). cbn [bind snd].
    destruct (Hdl h r (nth_error_In _ _ Hr)) as (st & w & Hk & _). destruct r as [nonce k proof jr|nonce pub inp]; [|discriminate].
    cbn [unwrap_flp_proof_share unwrap_flp_joint_rand_parts unwrap_vidpf_key bind rs_nonce key_of verifier_share].
    rewrite zero_padded. unfold joint_rand, jr_part, query_rand, beta_share. destruct (c_sid c =? 0)%Z; reflexivity. }
  rewrite Hone. reflexivity.
Qed.

Lemma verdict_iff c0 c1 len i h0 h1 r0 r1 b : at_root c0 -> at_root c1 -> c_len c0 = len -> c_len c1 = len -> c_vk c1 = c_vk c0 ->
  (c_sid c0 =? 0)%Z = true -> (c_sid c1 =? 0)%Z = false ->
  (forall p, length p = 1 -> defined_at E len (c_reports c0) p /\ defined_at E len (c_reports c1) p) ->
  nth_error (c_reports c0) i = Some (h0, r0) -> nth_error (c_reports c1) i = Some (h1, r1) ->
  flp_verdict E len c0 c1 i b <-> report_verdict E len (c_vk c0) r0 r1 b.
Proof.
  intros R0 R1 L0 L1 Hvk S0 S1 Hd H0 H1. unfold flp_verdict, report_verdict.
  rewrite (rfq_one c0 i h0 r0 R0) by (try exact H0; rewrite L0; apply Hd; reflexivity). rewrite (rfq_one c1 i h1 r1 R1) by (try exact H1; rewrite L1; apply Hd; reflexivity).
  rewrite S0, S1, L0, L1, Hvk. fold add_shares. split; intros (v0 & v1 & A & B & C); exists v0, v1.
  - bret A as w0 Hw0. bret B as w1 Hw1. apply unwrap_ret in Hw0, Hw1.
    assert (Hr : forall A (a b : A), Ret [a] = Ret [b] -> a = b) by congruence. apply Hr in A, B. subst w0 w1. auto.
  - rewrite A, B. auto.
Qed.

(** *** honest reports *)
Lemma zip_sub_shares p q : length q = length p -> shares_of q (zip_sub p q) p.
Proof.
  intros Hl. split; [exact Hl|]. split.
  - revert q Hl. induction p as [|x p IH]; intros [|y q] H; cbn in *; try discriminate; [reflexivity|]. rewrite IH by lia. reflexivity.
  - revert q Hl. induction p as [|x p IH]; intros [|y q] H [|i] a b Ha Hb; cbn in *; try discriminate.
    + assert (a = y) by congruence. assert (b = fsub x y) by congruence. subst. f_equal. ring.
    + eapply IH; [|exact Ha|exact Hb]. lia.
Qed.
Lemma beta_shares k0 k1 alpha beta : honest_pair E k0 k1 alpha beta -> 1 <= length alpha ->
  shares_of (beta_share E (length beta) k0) (beta_share E (length beta) k1) beta.
Proof.
  intros Hh Ha. unfold beta_share, sum_vec. split; [rewrite map_length, seq_length; reflexivity|]. split; [rewrite map_length, seq_length; reflexivity|].
  intros i a b H0 H1. rewrite nth_error_map' in H0, H1. destruct (nth_error (seq 0 (length beta)) i) as [j|] eqn:Hj; [|discriminate].
  assert (Hi : i < length beta) by (rewrite <- (seq_length (length beta) 0); apply nth_error_Some; congruence).
  rewrite nth_error_seq in Hj by exact Hi. injection Hj as <-. cbn [option_map Nat.add] in H0, H1.
  assert (Hs : forall A (a b : A), Some a = Some b -> a = b) by congruence. apply Hs in H0, H1. subst a b.
  pose proof (honest_comp E Hok k0 k1 alpha beta Hh [false] i ltac:(discriminate) Ha ltac:(lia)) as HL.
  pose proof (honest_comp E Hok k0 k1 alpha beta Hh [true] i ltac:(discriminate) Ha ltac:(lia)) as HR.
  pose proof (point_split_comp alpha beta [] i ltac:(cbn; lia) ltac:(lia)) as Hsp. cbn [app] in Hsp.
  assert (Hpv : nth i (point_value alpha beta []) (of_Z 0) = nth i beta (of_Z 0)) by (unfold point_value; cbn [is_prefix]; apply app_nth1; exact Hi).
  rewrite Hpv in Hsp. rewrite (nth_error_nth' beta (of_Z 0)) by exact Hi. f_equal. rewrite <- Hsp, <- HL, <- HR. ring.
Qed.

Lemma gen_report_inv len cl r : gen_report E len cl = Ret r -> length (cl_seed0 cl) = 16 -> length (cl_seed1 cl) = 16 ->
  exists k0 k1 proof, gen E (cl_seed0 cl) (cl_seed1 cl) (cl_alpha cl) (one_hot len (cl_bucket cl)) = Ret (k0, k1) /\ cl_bucket cl < len /\
    honest_pair E k0 k1 (cl_alpha cl) (one_hot len (cl_bucket cl)) /\
    flp_prove E len (one_hot len (cl_bucket cl)) (cl_prove_rand cl) (xof_field E (jr_part E true k0 (cl_nonce cl)) (jr_part E false k1 (cl_nonce cl)) [] (flp_joint_rand_len E len)) = Some proof /\
    r = PRMastic (cl_nonce cl) (k0, k1) (map (cl_proof_rand cl) (seq 0 (length proof)), zip_sub proof (map (cl_proof_rand cl) (seq 0 (length proof))))
        (jr_part E true k0 (cl_nonce cl), jr_part E false k1 (cl_nonce cl)) (cl_alpha cl).
Proof.
  intros H H0 H1. unfold gen_report in H. bret H as beta Hb. apply unwrap_ret in Hb. unfold encode_measurement in Hb.
  destruct (cl_bucket cl <? len) eqn:Hlt; [|discriminate]. injection Hb as <-. apply Nat.ltb_lt in Hlt.
  bret H as [k0 k1] Hg. bret H as proof Hp. apply unwrap_ret in Hp. injection H as <-.
  exists k0, k1, proof. split; [exact Hg|]. split; [exact Hlt|]. split; [apply (gen_honest E (cl_seed0 cl) (cl_seed1 cl)); assumption|]. split; [exact Hp|reflexivity].
Qed.

Lemma gen_seeds s0 s1 alpha beta k0 k1 : gen E s0 s1 alpha beta = Ret (k0, k1) -> root_seed k0 = s0 /\ root_seed k1 = s1.
Proof. unfold gen. intros H. bret H as [cws css] Hl. injection H as <- <-. auto. Qed.

Lemma one_hot_length len m : length (one_hot len m) = len.
Proof. unfold one_hot. rewrite map_length, seq_length. reflexivity. Qed.

Lemma honest_verdict len vk cl r : gen_report E len cl = Ret r -> length (cl_seed0 cl) = 16 -> length (cl_seed1 cl) = 16 -> cl_alpha cl <> [] ->
  flp_complete E len (one_hot len (cl_bucket cl)) (cl_prove_rand cl) (prover_joint_rand E len cl) (query_rand E len vk (cl_nonce cl)) ->
  report_verdict E len vk (fst (to_shares r)) (snd (to_shares r)) true.
Proof.
  intros Hg H0 H1 Ha Hc. destruct (gen_report_inv _ _ _ Hg H0 H1) as (k0 & k1 & proof & Hgen & Hlt & Hh & Hp & ->).
  destruct (gen_seeds _ _ _ _ _ _ Hgen) as [E0 E1].
  cbn [to_shares fst snd]. unfold report_verdict, verifier_share, joint_rand. cbn [fst snd].
  assert (Hjr : xof_field E (jr_part E true k0 (cl_nonce cl)) (jr_part E false k1 (cl_nonce cl)) [] (flp_joint_rand_len E len) = prover_joint_rand E len cl)
    by (unfold jr_part, prover_joint_rand; rewrite E0, E1; reflexivity).
  rewrite Hjr in *. pose proof (beta_shares _ _ _ _ Hh) as Hb. rewrite one_hot_length in Hb.
  apply (Hc proof); [exact Hp| |].
  - apply Hb. destruct (cl_alpha cl); [contradiction|cbn; lia].
  - apply zip_sub_shares. rewrite map_length, seq_length. reflexivity.
Qed.

Lemma randomness len cl r c0 c1 i h0 h1 : gen_report E len cl = Ret r -> length (cl_seed0 cl) = 16 -> length (cl_seed1 cl) = 16 ->
  c_len c0 = len -> c_len c1 = len -> c_vk c1 = c_vk c0 -> (c_sid c0 =? 0)%Z = true -> (c_sid c1 =? 0)%Z = false ->
  nth_error (c_reports c0) i = Some (h0, fst (to_shares r)) -> nth_error (c_reports c1) i = Some (h1, snd (to_shares r)) ->
  flp_joint_rand E c0 i = Ret (prover_joint_rand E len cl) /\ flp_joint_rand E c1 i = Ret (prover_joint_rand E len cl) /\
  flp_query_rand E c0 i = Ret (query_rand E len (c_vk c0) (cl_nonce cl)) /\ flp_query_rand E c1 i = Ret (query_rand E len (c_vk c0) (cl_nonce cl)).
Proof.
  intros Hg H0 H1 L0 L1 Hvk S0 S1 R0 R1. destruct (gen_report_inv _ _ _ Hg H0 H1) as (k0 & k1 & proof & Hgen & Hlt & Hh & Hp & ->).
  destruct (gen_seeds _ _ _ _ _ _ Hgen) as [E0 E1]. unfold flp_joint_rand, flp_query_rand. rewrite (index_some _ _ _ R0), (index_some _ _ _ R1). cbn [bind snd fst to_shares unwrap_vidpf_key unwrap_flp_joint_rand_parts rs_nonce].
  rewrite S0, S1, L0, L1, Hvk, E0, E1. unfold jr_part. rewrite E0, E1. repeat split.
Qed.

Lemma report_verdict_fun len vk r0 r1 b b' : report_verdict E len vk r0 r1 b -> report_verdict E len vk r0 r1 b' -> b = b'.
Proof. intros (v0 & v1 & A & B & C) (w0 & w1 & A' & B' & C'). congruence. Qed.

Lemma tree_init_root c c' : tree_init c = Ret c' -> at_root c' /\ root_of c' (length (c_reports c)) /\ c_reports c' = c_reports c /\ c_len c' = c_len c /\ c_vk c' = c_vk c /\ c_sid c' = c_sid c.
Proof.
  intros H. destruct (tree_init_inv E _ _ H) as (st & -> & Hn). cbn.
  pose proof (node_ok_is E _ _ _ Hn) as [Hi Hd]. split; [|split; [|repeat split]].
  - split; cbn; [constructor; [exact Hi|constructor]|exact Hd].
  - eexists. split; [reflexivity|]. cbn. apply map_length.
Qed.

Lemma pre_defined c x : at_root c -> flp_pre E c = Ret x -> defined_at E (c_len c) (c_reports c) [false] /\ defined_at E (c_len c) (c_reports c) [true].
Proof.
  intros [Hf Hd0] Hx. inversion Hf as [|p n0 ps f Hn0 Hrest Hp Hfe]. inversion Hrest. subst. 
  unfold flp_pre in Hx. rewrite <- Hfe in Hx. cbn [index nth_error bind length] in Hx. bret Hx as u Hu. bret Hx as u2 Hu2.
  bret Hx as l Hl. bret Hx as rr Hr. apply (make_tree_node_iff E c [] n0 false _ Hn0 Hd0) in Hl. apply (make_tree_node_iff E c [] n0 true _ Hn0 Hd0) in Hr. split; [apply Hl|apply Hr].
Qed.

Lemma one_defined c p : defined_at E (c_len c) (c_reports c) [false] /\ defined_at E (c_len c) (c_reports c) [true] -> length p = 1 -> defined_at E (c_len c) (c_reports c) p.
Proof. intros [A B] Hp. destruct p as [|[|] [|]]; try discriminate; assumption. Qed.

Lemma verdict_only len cl r c0 c1 d0 d1 i h0 h1 b : tree_init c0 = Ret d0 -> tree_init c1 = Ret d1 -> c_len c0 = len -> c_len c1 = len -> c_vk c1 = c_vk c0 ->
  (c_sid c0 =? 0)%Z = true -> (c_sid c1 =? 0)%Z = false ->
  gen_report E len cl = Ret r -> length (cl_seed0 cl) = 16 -> length (cl_seed1 cl) = 16 -> cl_alpha cl <> [] ->
  flp_complete E len (one_hot len (cl_bucket cl)) (cl_prove_rand cl) (prover_joint_rand E len cl) (query_rand E len (c_vk c0) (cl_nonce cl)) ->
  nth_error (c_reports c0) i = Some (h0, fst (to_shares r)) -> nth_error (c_reports c1) i = Some (h1, snd (to_shares r)) ->
  flp_verdict E len d0 d1 i b -> b = true.
Proof.
  intros T0 T1 L0 L1 Hvk S0 S1 Hg H0 H1 Ha Hc R0 R1 Hv.
  destruct (tree_init_root _ _ T0) as (A0 & _ & Q0 & M0 & V0 & I0). destruct (tree_init_root _ _ T1) as (A1 & _ & Q1 & M1 & V1 & I1).
  pose proof (honest_verdict len (c_vk c0) cl r Hg H0 H1 Ha Hc) as Ht. rewrite <- V0 in Ht.
  apply (report_verdict_fun len (c_vk d0) (fst (to_shares r)) (snd (to_shares r))); [|exact Ht].
  assert (D0 : defined_at E (c_len d0) (c_reports d0) [false] /\ defined_at E (c_len d0) (c_reports d0) [true]).
  { destruct Hv as (v0 & v1 & X0 & _). rewrite run_flp_queries_split in X0. bret X0 as x Hx. eapply pre_defined; eassumption. }
  assert (D1 : defined_at E (c_len d1) (c_reports d1) [false] /\ defined_at E (c_len d1) (c_reports d1) [true]).
  { destruct Hv as (v0 & v1 & _ & X1 & _). rewrite run_flp_queries_split in X1. bret X1 as x Hx. eapply pre_defined; eassumption. }
  apply (verdict_iff d0 d1 len i h0 h1); try assumption; try congruence.
  intros p Hp. split; [rewrite <- L0, <- M0|rewrite <- L1, <- M1]; apply one_defined; assumption.
Qed.

Lemma flp_keeps_honest fuel cfg len cl r s0 s1 d0 d1 n i h0 h1 t0 t1 keep : cfg_hist cfg = len -> 0 < cfg_query_batch cfg -> n <= fuel ->
  s_poison s0 = false -> s_poison s1 = false ->
  tree_init (s_coll s0) = Ret d0 -> tree_init (s_coll s1) = Ret d1 -> length (c_reports (s_coll s0)) = n -> length (c_reports (s_coll s1)) = n ->
  c_len (s_coll s0) = len -> c_len (s_coll s1) = len -> c_vk (s_coll s1) = c_vk (s_coll s0) ->
  (c_sid (s_coll s0) =? 0)%Z = true -> (c_sid (s_coll s1) =? 0)%Z = false ->
  gen_report E len cl = Ret r -> length (cl_seed0 cl) = 16 -> length (cl_seed1 cl) = 16 -> cl_alpha cl <> [] ->
  flp_complete E len (one_hot len (cl_bucket cl)) (cl_prove_rand cl) (prover_joint_rand E len cl) (query_rand E len (c_vk (s_coll s0)) (cl_nonce cl)) ->
  nth_error (c_reports (s_coll s0)) i = Some (h0, fst (to_shares r)) -> nth_error (c_reports (s_coll s1)) i = Some (h1, snd (to_shares r)) ->
  flp_loop fuel E cfg (set_coll s0 d0) (set_coll s1 d1) n 0 [] = Ret (t0, t1, keep) -> nth_error keep i = Some true.
Proof.
  intros Hh Hb Hf P0 P1 T0 T1 N0 N1 L0 L1 Hvk S0 S1 Hg H0 H1 Ha Hc R0 R1 HL.
  destruct (tree_init_root _ _ T0) as (_ & Q0 & _). destruct (tree_init_root _ _ T1) as (_ & Q1 & _). rewrite N0 in Q0. rewrite N1 in Q1.
  apply (flp_decisions fuel E cfg (set_coll s0 d0) (set_coll s1 d1) n) in HL; try assumption.
  destruct HL as (_ & _ & Hk & Hv). assert (Hi : i < n) by (rewrite <- N0; apply nth_error_Some; congruence).
  destruct (nth_error keep i) as [b|] eqn:Hb2; [|apply nth_error_None in Hb2; lia]. f_equal.
  apply (verdict_only len cl r (s_coll s0) (s_coll s1) d0 d1 i h0 h1 b); try assumption. rewrite <- Hh. apply (Hv i b). exact Hb2.
Qed.

Lemma honest_flp_verdict len cl r c0 c1 d0 d1 i h0 h1 : tree_init c0 = Ret d0 -> tree_init c1 = Ret d1 -> c_len c0 = len -> c_len c1 = len -> c_vk c1 = c_vk c0 ->
  (c_sid c0 =? 0)%Z = true -> (c_sid c1 =? 0)%Z = false ->
  (forall h x, In (h, x) (c_reports c0) -> well_formed 1 x) -> (forall h x, In (h, x) (c_reports c1) -> well_formed 1 x) ->
  gen_report E len cl = Ret r -> length (cl_seed0 cl) = 16 -> length (cl_seed1 cl) = 16 -> cl_alpha cl <> [] ->
  flp_complete E len (one_hot len (cl_bucket cl)) (cl_prove_rand cl) (prover_joint_rand E len cl) (query_rand E len (c_vk c0) (cl_nonce cl)) ->
  nth_error (c_reports c0) i = Some (h0, fst (to_shares r)) -> nth_error (c_reports c1) i = Some (h1, snd (to_shares r)) ->
  flp_verdict E len d0 d1 i true.
Proof.
  intros T0 T1 L0 L1 Hvk S0 S1 W0 W1 Hg H0 H1 Ha Hc R0 R1.
  destruct (tree_init_root _ _ T0) as (A0 & _ & Q0 & M0 & V0 & I0). destruct (tree_init_root _ _ T1) as (A1 & _ & Q1 & M1 & V1 & I1).
  pose proof (honest_verdict len (c_vk c0) cl r Hg H0 H1 Ha Hc) as Ht. rewrite <- V0 in Ht.
  assert (Hwf : forall reps : list (bool * report_share), (forall h x, In (h, x) reps -> well_formed 1 x) -> Forall (wf_share 1) (map snd reps)).
  { intros reps Hw. apply Forall_forall. intros x Hx. apply in_map_iff in Hx. destruct Hx as ([h y] & <- & Hin). destruct (Hw h y Hin) as (nn & k & pf & jr & Hy & K1 & K2 & K3). cbn [snd]. exists nn, k, pf, jr. split; [exact Hy|]. split; [exact K1|auto]. }
  apply (verdict_iff d0 d1 len i h0 h1 (fst (to_shares r)) (snd (to_shares r))); try assumption; try congruence.
  intros p Hp. rewrite Q0, Q1. split; (apply (wf_defined E Hok 1); [apply Hwf; assumption|lia]).
Qed.
End Flp.
