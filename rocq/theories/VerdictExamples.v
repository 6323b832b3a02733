(** Concrete case for C80: an environment whose joint randomness does not depend on its seed, and two reports whose
    public shares are wrong in one half each. *)
From Verif Require Import Base BaseFacts Field Util Env Collect Server Driver Modes Histogram Prio3 PolyFacts HistFacts SpecVidpf SpecCollect SpecServer SpecMetrics SpecWhh SpecModes SpecHist SpecPrio3 SpecVerdict
  CollectFacts CollectInv Prio3Facts Prio3Run PmFacts VerdictFacts VerdictPrio3 RefEnv ToyEnv ExRun DriverPropFacts WhhExamples ModesExamples HistExamples Prio3Examples.

Definition y4 : env :=
  {| dbg := true; x86 := true; aes0 := aes0 tx; blake3 := blake3 tx; xof_bytes := xof_bytes tx;
     xof_field := fun s d u n => xof_field tx (if bytes_eqb d dst_joint_randomness then [] else s) d u n; clog2f := clog2f tx;
     flp_joint_rand_len := flp_joint_rand_len tx; flp_query_rand_len := flp_query_rand_len tx; flp_prove_rand_len := flp_prove_rand_len tx;
     flp_prove := flp_prove tx; flp_query := flp_query tx; flp_decide := flp_decide tx;
     p3_prep_init := p3_prep_init tx; p3_decode_share := p3_decode_share tx; p3_msg := p3_msg tx; p3_next := p3_next tx |}.
Lemma y4_ok : env_ok y4.
Proof. destruct tx_ok as (H1 & H2 & H3 & H4 & H5 & H6). split; [exact H1|]. split; [exact H2|]. split; [exact H3|]. split; [intros; apply H4|]. split; [exact H5|exact H6]. Qed.
Lemma y4_joint s : p3_joint_rand y4 s = xof_field tx [] dst_joint_randomness [] 2.
Proof. reflexivity. Qed.

Definition k_wrong : bytes := repeat 7%N 16.
Definition k_own0 (cl : pm_client) : bytes := p3_leader_part y4 4 cl.
Definition k_own1 (cl : pm_client) : bytes := p3_part y4 1 (p3_helper_blind cl) (pc_nonce cl) (p3_helper_x y4 4 cl).
Definition k_first : pm_client := y_client 1 1.
Definition k_second : pm_client := y_client 2 0.
Lemma k_fair : forallb (y_fair y4) [k_first; k_second] = true.
Proof. vm_cast_no_check (eq_refl true). Qed.
Lemma k_fair_ok cl : y_fair y4 cl = true -> p3_fair y4 4 ex_vk cl.
Proof.
  unfold y_fair. intros H. apply andb_true_iff in H. destruct H as [H Hd]. apply andb_true_iff in H. destruct H as [Hb Hr].
  split; [apply Nat.ltb_lt; exact Hb|]. split; [apply Nat.eqb_eq; exact Hr|]. unfold on_domain. intros Hz. apply feqb_eq in Hz. rewrite Hz in Hd. discriminate Hd.
Qed.
(** the wrong half changes the seed *)
Lemma k_differ : bytes_eqb (p3_joint_seed y4 k_wrong (k_own1 k_first)) (p3_joint_seed y4 (k_own0 k_first) (k_own1 k_first)) ||
  bytes_eqb (p3_joint_seed y4 (k_own0 k_second) k_wrong) (p3_joint_seed y4 (k_own0 k_second) (k_own1 k_second)) = false.
Proof. vm_cast_no_check (eq_refl false). Qed.

(** a report of the client with the public share q *)
Definition k_report (cl : pm_client) (q : bytes) (first : bool) : report_share :=
  match p3_shard y4 4 (pc_bucket cl) (pc_nonce cl) (pc_rand cl) with
  | Some (_, (i0, i1)) => RSPrio3 (pc_nonce cl) q (if first then i0 else i1)
  | None => RSPrio3 [] [] []
  end.
Definition k_q0 : bytes := k_wrong ++ k_own1 k_first.
Definition k_q1 : bytes := k_own0 k_second ++ k_wrong.
Lemma k_apart : verdicts (p3_env y4) 4 ex_vk (k_report k_first k_q0 true) (k_report k_first k_q0 false) (Some (p3_leader_x y4 4 k_first), None) /\
  verdicts (p3_env y4) 4 ex_vk (k_report k_second k_q1 true) (k_report k_second k_q1 false) (None, Some (p3_helper_x y4 4 k_second)).
Proof.
  pose proof k_fair as Hf. cbn [forallb] in Hf. apply andb_true_iff in Hf. destruct Hf as [F0 F1]. apply andb_true_iff in F1. destruct F1 as [F1 _].
  pose proof k_differ as Hd. apply orb_false_iff in Hd. destruct Hd as [D0 D1].
  assert (Hj : forall s cl, p3_joint_rand y4 s = p3_joint y4 4 cl) by (intros s cl; unfold p3_joint; rewrite !y4_joint; reflexivity).
  split.
  - destruct (halves y4 y4_ok 4 eq_refl ex_vk k_first k_wrong (k_own1 k_first) (k_fair_ok _ F0) eq_refl (part_length y4 y4_ok _ _ _ _) (Hj _ _) (Hj _ _)) as (pub & i0 & i1 & Hs & Hv).
    unfold k_report. rewrite Hs. fold (k_own0 k_first) (k_own1 k_first) in Hv. rewrite D0, (proj2 (bytes_eqb_iff _ _) eq_refl) in Hv. exact Hv.
  - destruct (halves y4 y4_ok 4 eq_refl ex_vk k_second (k_own0 k_second) k_wrong (k_fair_ok _ F1) (part_length y4 y4_ok _ _ _ _) eq_refl (Hj _ _) (Hj _ _)) as (pub & i0 & i1 & Hs & Hv).
    unfold k_report. rewrite Hs. fold (k_own0 k_second) (k_own1 k_second) in Hv. rewrite D1, (proj2 (bytes_eqb_iff _ _) eq_refl) in Hv. exact Hv.
Qed.

Definition k_server (id : Z) (rs : list report_share) : server := fst (handle_all (p3_env y4) (server_start id None 4) [QReset ex_vk 4; QAddReportShares rs]).
Lemma k_server_reports id rs : s_poison (k_server id rs) = false /\ s_id (k_server id rs) = id /\ c_len (s_coll (k_server id rs)) = 4 /\ c_vk (s_coll (k_server id rs)) = ex_vk /\
  c_reports (s_coll (k_server id rs)) = map (fun r => (true, r)) rs.
Proof. unfold k_server. cbn [handle_all handle server_start]. cbn. rewrite add_reports_spec. do 4 (split; [reflexivity|]). reflexivity. Qed.
Definition k_verdicts : list (option (list fld) * option (list fld)) := [(Some (p3_leader_x y4 4 k_first), None); (None, Some (p3_helper_x y4 4 k_second))].
Definition k_s0 : server := k_server 0 [k_report k_first k_q0 true; k_report k_second k_q1 true].
Definition k_s1 : server := k_server 1 [k_report k_first k_q0 false; k_report k_second k_q1 false].
Lemma k_pair : verdict_pair (p3_env y4) 4 ex_vk k_s0 k_s1 0 k_verdicts.
Proof.
  destruct (k_server_reports 0 [k_report k_first k_q0 true; k_report k_second k_q1 true]) as (A0 & B0 & C0 & D0 & R0).
  destruct (k_server_reports 1 [k_report k_first k_q0 false; k_report k_second k_q1 false]) as (A1 & B1 & C1 & D1 & R1).
  fold k_s0 in *. fold k_s1 in *. destruct k_apart as [V0 V1]. unfold verdict_pair. rewrite R0, R1. do 8 (split; [assumption|]).
  unfold k_verdicts. revert V0 V1. generalize (k_report k_first k_q0 true) (k_report k_first k_q0 false) (k_report k_second k_q1 true) (k_report k_second k_q1 false)
    (Some (p3_leader_x y4 4 k_first), @None (list fld)) (@None (list fld), Some (p3_helper_x y4 4 k_second)). intros r0 r1 r2 r3 v0 v1 V0 V1.
  intros [|[|k]] v Hk; cbn [nth_error] in Hk; [| |destruct k; discriminate Hk]; injection Hk as <-; cbn [Nat.add map nth_error]; do 4 eexists; (split; [reflexivity|]); (split; [reflexivity|]).
  - exact V0.
  - exact V1.
Qed.
Lemma k_nonzero : negb (feqb (fadd (nth 0 (p3_leader_x y4 4 k_first) fzero) (nth 0 (p3_helper_x y4 4 k_second) fzero)) fzero) = true.
Proof. vm_cast_no_check (eq_refl true). Qed.
(** no report is accepted by both, yet the histogram is not zero *)
Lemma k_hist : exists t0 t1 h, run_pm (p3_env y4) y_cfg k_s0 k_s1 2 = Ret (t0, t1, [(h, 1%Z)]) /\ nth 0 h 0%Z <> 0%Z.
Proof.
  pose proof (run_verdicts (p3_env y4) y_cfg ex_vk k_verdicts k_s0 k_s1 eq_refl ltac:(cbn; lia) eq_refl k_pair) as H. change (length k_verdicts) with 2 in H.
  change (forallb same_number (pieces (cfg_query_batch y_cfg) k_verdicts)) with true in H. cbv iota in H. destruct H as (t0 & t1 & H). rewrite H.
  change (map (verdict_histogram (cfg_hist y_cfg)) (pieces (cfg_query_batch y_cfg) k_verdicts)) with [verdict_histogram 4 k_verdicts].
  unfold verdict_histogram. change (rejections (map fst k_verdicts)) with 1. change (Z.of_nat 1) with 1%Z.
  exists t0, t1, (fst (verdict_histogram 4 k_verdicts)). split; [reflexivity|]. cbn [verdict_histogram fst seq map nth].
  pose proof k_nonzero as Hn. unfold k_verdicts, somes. cbn [map fst snd concat app fsum]. revert Hn. change (of_Z 0) with fzero.
  generalize (nth 0 (p3_leader_x y4 4 k_first) fzero) (nth 0 (p3_helper_x y4 4 k_second) fzero). intros u v Hn Hz.
  assert (Hs : fadd u v = fzero) by (apply f_ext; transitivity (fval (fadd (fadd u fzero) (fadd v fzero))); [f_equal; ring|exact Hz]).
  rewrite Hs in Hn. discriminate Hn.
Qed.
(** with the first of the two reports alone the numbers differ and the driver stops *)
Lemma k_stops : run_pm (p3_env y4) y_cfg k_s0 k_s1 1 = Panic PAssert.
Proof.
  assert (Hp : verdict_pair (p3_env y4) 4 ex_vk k_s0 k_s1 0 (firstn 1 k_verdicts)).
  { pose proof k_pair as (A & B & C & D & F & G & H & I & J). repeat (split; [assumption|]). intros k v Hk. apply J. destruct k as [|k]; [exact Hk|destruct k; discriminate Hk]. }
  pose proof (run_verdicts (p3_env y4) y_cfg ex_vk (firstn 1 k_verdicts) k_s0 k_s1 eq_refl ltac:(cbn; lia) eq_refl Hp) as H. exact H.
Qed.
Lemma k_refuted : ~ (forall E, env_ok E -> forall cfg vk vs s0 s1 t0 t1 ts, hist_ok (cfg_hist cfg) = true -> 0 < cfg_query_batch cfg -> (Z.of_nat (length vs) < 2 ^ 64)%Z ->
  verdict_pair (p3_env E) (cfg_hist cfg) vk s0 s1 0 vs -> run_pm (p3_env E) cfg s0 s1 (length vs) = Ret (t0, t1, ts) ->
  ts = map (sum_histogram (cfg_hist cfg)) (pieces (cfg_query_batch cfg) (map agreed vs))).
Proof.
  intros H. destruct k_hist as (t0 & t1 & h & Hr & Hn).
  pose proof (H y4 y4_ok y_cfg ex_vk k_verdicts k_s0 k_s1 t0 t1 _ eq_refl ltac:(cbn; lia) eq_refl k_pair Hr) as Hts.
  injection Hts as Hh. apply Hn. rewrite Hh. reflexivity.
Qed.
