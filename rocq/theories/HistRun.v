(** Reports and complete runs with the proof system of Histogram.v. *)
From Verif Require Import Base BaseFacts Field Util UtilFacts Env Prg Vidpf Merkle Collect Server Driver PrimeFacts Histogram PolyFacts HistFacts
  SpecVidpf SpecTree SpecCollect SpecServer SpecDriver SpecLevel SpecWhh SpecMetrics SpecModes SpecHist FlpFacts WhhMain ModesMain Modes VidpfPropFacts DriverFacts.
From Coq Require Import Permutation.

Lemma with_hist_ok E : env_ok E -> env_ok (with_hist E).
Proof. intros H. exact H. Qed.
Lemma two (v : list fld) : length v = 2 -> v = [nth 0 v fzero; nth 1 v fzero].
Proof. destruct v as [|a [|b [|c v]]]; cbn; congruence. Qed.
Lemma one_entry (v : list fld) : length v = 1 -> v = [nth 0 v fzero].
Proof. destruct v as [|a [|b v]]; cbn; congruence. Qed.
Lemma one_hot_unit len m : m < len -> unit_vector len (one_hot len m).
Proof.
  intros Hm. split; [apply one_hot_length|]. exists m. split; [exact Hm|]. intros i Hi. unfold one_hot.
  apply (nth_map_seq (fun i => if i =? m then fone else fzero)). exact Hi.
Qed.

Lemma Hchunk : 0 < chunk.
Proof. unfold chunk. lia. Qed.

Section Run.
Variable E : env.
Hypothesis Hok : env_ok E.
Variable len : nat.
Hypothesis Hlen : hist_ok len = true.
Let H := with_hist E.

Lemma joint_two cl : prover_joint_rand H len cl = [nth 0 (prover_joint_rand H len cl) fzero; nth 1 (prover_joint_rand H len cl) fzero].
Proof. apply two. destruct Hok as (_ & _ & _ & Hx & _). apply Hx. Qed.
Lemma query_one vk nonce : query_rand H len vk nonce = [nth 0 (query_rand H len vk nonce) fzero].
Proof. apply one_entry. destruct Hok as (_ & _ & _ & Hx & _). apply Hx. Qed.

(** the completeness hypothesis of C18 and C22 *)
Lemma hist_complete m pr joint r : m < len -> length joint = 2 -> ~ on_domain chunk len r -> flp_complete H len (one_hot len m) pr joint [r].
Proof.
  intros Hm Hj Hr proof b0 b1 p0 p1 Hp Sb Sp. rewrite (two _ Hj) in Hp |- *. cbn [nth] in *. change (flp_prove H) with (hist_prove chunk) in Hp.
  exact (complete chunk len Hchunk Hlen _ pr _ _ r proof b0 b1 p0 p1 (one_hot_unit len m Hm) Hp Hr Sb Sp).
Qed.
Lemma fair_good bits vk cl r : gen_report H len cl = Ret r -> fair_client E len bits vk cl -> good_client H len bits vk cl.
Proof.
  intros Hg (H0 & H1 & Ha & Hr). split; [exact H0|]. split; [exact H1|]. split; [exact Ha|].
  destruct (gen_report_inv H _ _ _ Hg H0 H1) as (_ & _ & _ & _ & Hlt & _).
  rewrite (query_one vk (cl_nonce cl)). apply hist_complete; [exact Hlt| |exact Hr]. destruct Hok as (_ & _ & _ & Hx & _). apply Hx.
Qed.

(** any weights, the prover's own proof *)
Lemma report_checks vk nonce k0 k1 alpha x pr proof p0 p1 j0 j1 :
  honest_keys H k0 k1 alpha x -> alpha <> [] -> length x = len ->
  joint_rand H true len nonce k0 (jr_part H true k0 nonce, jr_part H false k1 nonce) = [j0; j1] ->
  hist_prove chunk len x pr [j0; j1] = Some proof -> shares_of p0 p1 proof ->
  ~ on_domain chunk len (nth 0 (query_rand H len vk nonce) fzero) ->
  report_verdict H len vk (RSMastic nonce k0 p0 (jr_part H true k0 nonce, jr_part H false k1 nonce))
    (RSMastic nonce k1 p1 (jr_part H true k0 nonce, jr_part H false k1 nonce)) (feqb (checks len x j0 j1) fzero).
Proof.
  intros Hk Ha Hx Hj Hp Sp Hr. pose proof (beta_shares_any H k0 k1 alpha x (with_hist_ok E Hok) Hk Ha) as Sb. rewrite Hx in Sb.
  assert (Hj1 : joint_rand H false len nonce k1 (jr_part H true k0 nonce, jr_part H false k1 nonce) = [j0; j1]) by exact Hj.
  unfold report_verdict, verifier_share. rewrite Hj, Hj1, (query_one vk nonce). change (flp_query H) with (hist_query chunk). change (flp_decide H) with (fun _ : nat => hist_decide chunk).
  rewrite <- (circuit_checks len).
  exact (honest_any chunk len Hchunk Hlen x pr j0 j1 _ proof _ _ p0 p1 Hp Hr Sb Sp).
Qed.

(** a simulated misbehaving client *)
Lemma spoilt_shares (proof q : list fld) c : length q = length proof -> proof <> [] ->
  exists y z t qt, proof = z :: t /\ q = y :: qt /\ zip_sub proof q = fsub z y :: zip_sub t qt /\
    shares_of q (fadd (fsub z y) c :: zip_sub t qt) (fadd z c :: t).
Proof.
  intros Hl Hn. destruct proof as [|z t]; [contradiction|]. destruct q as [|y qt]; [discriminate|]. exists y, z, t, qt. cbn [length] in Hl. injection Hl as Hl.
  destruct (zip_sub_shares t qt Hl) as (L0 & L1 & Hs). repeat split; [cbn; lia|cbn; lia|].
  intros [|i] a b Ha Hb; cbn [nth_error] in *; [injection Ha as <-; injection Hb as <-; f_equal; ring|apply Hs; assumption].
Qed.
Lemma spoilt_verdict vk cl r w : gen_report H len cl = Ret r -> length (cl_seed0 cl) = 16 -> length (cl_seed1 cl) = 16 -> cl_alpha cl <> [] ->
  ~ on_domain chunk len (query_point E len vk cl) -> second_wire chunk len (cl_prove_rand cl) (one_hot len (cl_bucket cl)) w ->
  exists r1', tamper false (snd (to_shares r)) = Ret r1' /\
  report_verdict H len vk (fst (to_shares r)) r1' (feqb (poly_eval w (query_point E len vk cl)) fzero).
Proof.
  intros Hg H0 H1 Ha Hr Hw. destruct (gen_report_inv H _ _ _ Hg H0 H1) as (k0 & k1 & proof & Hgen & Hlt & Hh & Hp & ->).
  destruct (gen_seeds H _ _ _ _ _ _ Hgen) as [E0 E1]. cbn [to_shares fst snd tamper] in *.
  assert (Hjr : xof_field H (jr_part H true k0 (cl_nonce cl)) (jr_part H false k1 (cl_nonce cl)) [] (flp_joint_rand_len H len) = prover_joint_rand H len cl)
    by (unfold jr_part, prover_joint_rand; rewrite E0, E1; reflexivity).
  rewrite Hjr in Hp. rewrite (joint_two cl) in Hp. change (flp_prove H) with (hist_prove chunk) in Hp.
  assert (Hne : proof <> []).
  { intros ->. rewrite (prove_eq chunk len) in Hp. destruct (_ && _) eqn:Hb; [|discriminate]. injection Hp as Hp. apply app_eq_nil in Hp. destruct Hp as [Hp _].
    apply andb_true_iff in Hb. destruct Hb as [_ Hb]. rewrite Hp in Hb. discriminate Hb. }
  set (q := map (cl_proof_rand cl) (seq 0 (length proof))) in *.
  assert (Hlq : length q = length proof) by (unfold q; rewrite map_length, seq_length; reflexivity).
  destruct (spoilt_shares proof q (of_N 1337) Hlq Hne) as (y & z & t & qt & Ep & Eq & Ez & Sp). rewrite Ez. unfold index. cbn [nth_error bind update]. eexists. split; [reflexivity|].
  assert (Sb : shares_of (beta_share H len k0) (beta_share H len k1) (one_hot len (cl_bucket cl))).
  { pose proof (beta_shares H (with_hist_ok E Hok) _ _ _ _ Hh) as Hb. rewrite one_hot_length in Hb. apply Hb. destruct (cl_alpha cl); [contradiction|cbn; lia]. }
  unfold report_verdict, verifier_share, joint_rand. cbn [fst snd]. rewrite Hjr. unfold query_point in *. fold H in Hr |- *. rewrite (query_one vk (cl_nonce cl)), (joint_two cl).
  change (flp_query H) with (hist_query chunk). change (flp_decide H) with (fun _ : nat => hist_decide chunk). cbn [nth].
  assert (Hc : of_N 1337 <> fzero) by (intros Hz; apply (f_equal fval) in Hz; discriminate Hz).
  apply (spoilt chunk len Hchunk Hlen (one_hot len (cl_bucket cl)) (cl_prove_rand cl) _ _ _ proof (of_N 1337) w _ _ _ _ (fadd z (of_N 1337) :: t)); try assumption.
  - apply one_hot_unit, Hlt.
  - exists z, t. auto.
Qed.

Lemma fair_choice_good bits vk clients reports chs : 1 <= bits -> mapM (gen_report H len) clients = Ret reports -> Forall (fair_client E len bits vk) clients ->
  Forall (fair_choice E len vk clients) chs -> Forall (good_choice H len vk reports) chs.
Proof.
  intros Hb Hm Hc Hf. apply mapM_inv in Hm. apply Forall_forall. intros ch Hch. rewrite Forall_forall in Hf. destruct (Hf ch Hch) as [Hi Hs].
  pose proof (Forall2_len _ _ _ Hm) as Hl. split; [lia|]. intros Hcount.
  destruct (nth_error clients (ch_idx ch)) as [cl|] eqn:Ecl; [|apply nth_error_None in Ecl; lia].
  destruct (nth_error reports (ch_idx ch)) as [r|] eqn:Er; [|apply nth_error_None in Er; lia].
  assert (Hgr : gen_report H len cl = Ret r) by (apply Forall2_nth in Hm; destruct Hm as [_ Hm]; apply (Hm (ch_idx ch)); assumption).
  rewrite Forall_forall in Hc. destruct (Hc cl (nth_error_In _ _ Ecl)) as (H0 & H1 & Ha & Hr).
  pose proof Hcount as Hmc. unfold counts in Hmc. apply negb_false_iff, andb_true_iff in Hmc. destruct Hmc as [Hmal Hcoin]. apply negb_true_iff in Hcoin.
  pose proof (second_wire_exists chunk len Hchunk Hlen (cl_prove_rand cl) (one_hot len (cl_bucket cl)) fzero) as Hw.
  assert (Hal : cl_alpha cl <> []) by (intros Hz; rewrite Hz in Ha; cbn in Ha; lia).
  destruct (spoilt_verdict vk cl r _ Hgr H0 H1 Hal Hr Hw) as (r1' & Ht & Hv).
  exists (fst (to_shares r)), r1'. split.
  - unfold make_upload, index. rewrite Er. cbn [bind]. rewrite Hmal, Hcoin. destruct (to_shares r) as [r0 r1]. cbn [fst snd] in *. rewrite Ht. reflexivity.
  - destruct (feqb _ fzero) eqn:Ef in Hv; [|exact Hv]. apply feqb_eq in Ef. exfalso. exact (Hs Hcount cl _ eq_refl Hw Ef).
Qed.

Lemma fair_all bits vk clients reports : mapM (gen_report H len) clients = Ret reports -> Forall (fair_client E len bits vk) clients -> Forall (good_client H len bits vk) clients.
Proof.
  intros Hm Hc. apply mapM_inv in Hm. induction Hm as [|cl r cls rs Hg Hm IH]; [constructor|]. inversion Hc; subst. constructor; [|apply IH; assumption].
  apply (fair_good bits vk cl r); assumption.
Qed.
Lemma fixed_len : fixed_verifier_len H len.
Proof.
  exists (verifier_len chunk). intros b p q j v. change (flp_query H) with (hist_query chunk). unfold hist_query. destruct (_ && _); [|discriminate]. cbv zeta. destruct (feqb _ _); [discriminate|].
  intros Hv. apply (f_equal (fun o => match o with Some x => length x | None => 0 end)) in Hv. cbv beta iota in Hv. rewrite <- Hv. match goal with |- length (?a :: ?l) = _ => change (S (length l) = verifier_len chunk) end.
  rewrite app_length, map_length. unfold wire_polys. rewrite map_length, seq_length. reflexivity.
Qed.

Theorem hist_main bits vk clients reports chs fuel cfg s0 s1 :
  1 <= bits -> mapM (gen_report H len) clients = Ret reports ->
  Forall (fair_client E len bits vk) clients -> Forall (fair_choice E len vk clients) chs ->
  cfg_hist cfg = len -> cfg_bits cfg = Some bits -> 0 < cfg_query_batch cfg -> 0 < cfg_add_batch cfg -> clients <> [] ->
  length chs <= fuel -> (Z.of_nat (length chs) < 2 ^ 64)%Z -> running 0 bits s0 -> (exists id, id <> 0%Z /\ running id bits s1) ->
  (2 <= bits -> existsb counts chs = true) -> (bits = 1 -> forallb counts chs = true) ->
  (forall l, 1 <= l -> l + 1 < bits -> exists p, length p = l /\ popular (threshold cfg) (ballots clients chs) p = true) ->
  exists t0 t1, main_whh fuel H cfg clients vk chs s0 s1 =
    Ret (t0, t1, map (tally_result (ballots clients chs) len) (filter (popular (threshold cfg) (ballots clients chs)) (all_paths bits))).
Proof.
  intros Hb Hm Hc Hf C1 C2 C3 C4 Hne Hfu Hn R0 R1 Hx Hy Hp.
  apply (main_whh_ok H (with_hist_ok E Hok) len bits vk clients reports chs Hb Hm); try assumption.
  - apply (fair_all bits vk clients reports); assumption.
  - apply (fair_choice_good bits vk clients); assumption.
Qed.
Theorem hist_tables bits vk clients reports chs samples order fuel cfg s0 s1 :
  1 <= bits -> mapM (gen_report H len) clients = Ret reports ->
  Forall (fair_client E len bits vk) clients -> Forall (fair_choice E len vk clients) chs ->
  cfg_hist cfg = len -> 0 < cfg_query_batch cfg -> 0 < cfg_add_batch cfg -> clients <> [] -> length chs <= fuel ->
  running 0 bits s0 -> (exists id, id <> 0%Z /\ running id bits s1) ->
  (forall s, In s samples -> 1 <= s < length clients) -> (forall l, Permutation (order l) l) ->
  exists t0 t1 attrs, main_abm fuel H cfg clients vk chs samples order s0 s1 =
    Ret (t0, t1, map (fun e => tally_table len attrs (in_table (dbg E) clients (firstn e chs))) (batch_ends (length chs) (cfg_query_batch cfg))) /\
    NoDup attrs /\ forall a, In a attrs <-> exists i cl, In i samples /\ nth_error clients i = Some cl /\ a = cl_alpha cl.
Proof.
  intros Hb Hm Hc Hf C1 C3 C4 Hne Hfu R0 R1 Hs Ho.
  apply (main_abm_ok H len bits vk clients reports chs samples order fuel cfg s0 s1 (with_hist_ok E Hok) Hb Hm); try assumption.
  - apply (fair_all bits vk clients reports); assumption.
  - apply (fair_choice_good bits vk clients); assumption.
  - apply fixed_len.
Qed.
End Run.
