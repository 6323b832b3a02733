(** Complete runs of weighted heavy hitters: the whole program. *)
From Verif Require Import Base BaseFacts Field Util UtilFacts Env Prg PrgFacts PrgSpecFacts2 Vidpf SpecVidpf SpecTree VidpfFacts VidpfEvalFacts VidpfTreeFacts VidpfTreeFacts3 VidpfTreeFacts4
  Merkle Collect Server Driver SpecCollect SpecServer SpecDriver SpecCheck SpecLevel SpecWhh CollectFacts CollectInv ServerFacts DriverFacts DriverPropFacts RefuteFacts MerkleFacts LevelFacts PairFacts WhhFacts WhhFacts2 FlpFacts WhhFacts3.

Section Main.
Variable E : env.
Hypothesis Hok : env_ok E.
Variables (len bits : nat) (vk : bytes) (clients : list client) (reports : list plaintext_report) (chs : list choice).
Hypothesis Hb : 1 <= bits.
Hypothesis Hrep : mapM (gen_report E len) clients = Ret reports.
Hypothesis Hcl : Forall (good_client E len bits vk) clients.
Hypothesis Hch : Forall (good_choice E len vk reports) chs.

Definition share0 ch := match make_upload reports ch with Ret (r0, _) => r0 | Panic _ => RSPrio3 [] [] [] end.
Definition share1 ch := match make_upload reports ch with Ret (_, r1) => r1 | Panic _ => RSPrio3 [] [] [] end.
Definition alpha_of ch := match nth_error clients (ch_idx ch) with Some cl => cl_alpha cl | None => [] end.
Definition bucket_of ch := match nth_error clients (ch_idx ch) with Some cl => cl_bucket cl | None => 0 end.
Definition entry_of ch : entry :=
  {| e_ok := counts ch; e_r0 := share0 ch; e_r1 := share1 ch; e_alpha := alpha_of ch; e_beta := one_hot len (bucket_of ch) |}.

Lemma choice_client ch : In ch chs -> exists cl r, nth_error clients (ch_idx ch) = Some cl /\ nth_error reports (ch_idx ch) = Some r /\
  gen_report E len cl = Ret r /\ good_client E len bits vk cl.
Proof.
  intros Hin. rewrite Forall_forall in Hch. destruct (Hch _ Hin) as [Hi _].
  pose proof (mapM_inv _ _ _ Hrep) as HF. pose proof (Forall2_len _ _ _ HF) as Hl. apply Forall2_nth in HF. destruct HF as [_ HF].
  destruct (nth_error reports (ch_idx ch)) as [r|] eqn:Hr; [|apply nth_error_None in Hr; lia].
  destruct (nth_error clients (ch_idx ch)) as [cl|] eqn:Hc; [|apply nth_error_None in Hc; lia].
  exists cl, r. split; [reflexivity|]. split; [reflexivity|]. split; [apply (HF _ _ _ Hc Hr)|]. rewrite Forall_forall in Hcl. apply Hcl. eapply nth_error_In; eassumption.
Qed.

Lemma wf_of n k proof jr : wf_key bits k -> well_formed bits (RSMastic n k proof jr).
Proof. intros (A & B & C). exists n, k, proof, jr. auto. Qed.

Lemma upload_facts ch : In ch chs -> exists cl r0 r1, nth_error clients (ch_idx ch) = Some cl /\ make_upload reports ch = Ret (r0, r1) /\ cl_bucket cl < len /\ length (cl_alpha cl) = bits /\
  well_formed bits r0 /\ well_formed bits r1 /\ report_verdict E len vk r0 r1 (counts ch) /\ honest_keys E (key_of r0) (key_of r1) (cl_alpha cl) (one_hot len (cl_bucket cl)).
Proof.
  intros Hin. destruct (choice_client ch Hin) as (cl & r & Hc & Hr & Hg & H0 & H1 & Ha & Hcomp).
  destruct (gen_report_inv E len cl r Hg H0 H1) as (k0 & k1 & proof & Hgen & Hlt & Hh & Hp & Hre).
  assert (Hv : report_verdict E len vk (fst (to_shares r)) (snd (to_shares r)) true).
  { apply (honest_verdict E Hok len vk cl r Hg H0 H1); [|exact Hcomp]. intros Hc0. rewrite Hc0 in Ha. cbn in Ha. lia. }
  destruct (honest_wf E Hok _ _ _ _ Hh) as [W0 W1]. rewrite Ha in W0, W1.
  assert (Hhk : honest_keys E k0 k1 (cl_alpha cl) (one_hot len (cl_bucket cl))) by (exists (cl_seed0 cl), (cl_seed1 cl); auto).
  exists cl. assert (Hu : make_upload reports ch = let! r1 := (if ch_malicious ch then tamper (ch_coin ch) (snd (to_shares r)) else Ret (snd (to_shares r))) in Ret (fst (to_shares r), r1)).
  { unfold make_upload. rewrite (index_some _ _ _ Hr). cbn [bind]. destruct (to_shares r). reflexivity. }
  destruct (gen_seeds E _ _ _ _ _ _ Hgen) as [_ Es1].
  destruct (counts ch) eqn:Hcount.
  - assert (Hu2 : make_upload reports ch = Ret (fst (to_shares r), snd (to_shares r))).
    { rewrite Hu. subst r. cbn [to_shares fst snd]. destruct (ch_malicious ch) eqn:Hm; [|reflexivity].
      unfold counts in Hcount. rewrite Hm in Hcount. cbn [andb] in Hcount. rewrite negb_involutive in Hcount. rewrite Hcount.
      cbn [tamper]. unfold get_root_seed. rewrite Es1. destruct (cl_seed1 cl) as [|b sd]; [discriminate H1|]. reflexivity. }
    exists (fst (to_shares r)), (snd (to_shares r)). split; [exact Hc|]. split; [exact Hu2|]. split; [exact Hlt|]. split; [exact Ha|].
    subst r. cbn [to_shares fst snd] in *. split; [apply wf_of; exact W0|]. split; [apply wf_of; exact W1|]. split; [exact Hv|]. exact Hhk.
  - rewrite Forall_forall in Hch. destruct (proj2 (Hch _ Hin) Hcount) as (r0 & r1 & Hm & Hbad).
    exists r0, r1. split; [exact Hc|]. split; [exact Hm|]. split; [exact Hlt|]. split; [exact Ha|]. clear Hv.
    rewrite Hu in Hm. subst r. cbn [to_shares fst snd] in Hm.
    assert (Hm2 : exists proof', r0 = RSMastic (cl_nonce cl) k0 (map (cl_proof_rand cl) (seq 0 (length proof))) (jr_part E true k0 (cl_nonce cl), jr_part E false k1 (cl_nonce cl)) /\
       r1 = RSMastic (cl_nonce cl) k1 proof' (jr_part E true k0 (cl_nonce cl), jr_part E false k1 (cl_nonce cl))).
    { assert (Hr2 : forall A (a b c d : A), Ret (a, b) = Ret (c, d) -> c = a /\ d = b) by (intros A a b c d [= -> ->]; auto).
      unfold counts in Hcount. apply negb_false_iff, andb_true_iff in Hcount. destruct Hcount as [Hmal Hcoin]. apply negb_true_iff in Hcoin.
      rewrite Hmal, Hcoin in Hm. cbn [tamper] in Hm. bret Hm as r1' Hr1. bret Hr1 as x Hx. apply Hr2 in Hm. destruct Hm as [-> ->].
      assert (Hr1' : forall A (a b : A), Ret a = Ret b -> b = a) by congruence. apply Hr1' in Hr1. rewrite Hr1. eexists. split; reflexivity. }
    destruct Hm2 as (proof' & -> & ->). split; [apply wf_of; exact W0|]. split; [apply wf_of; exact W1|]. split; [exact Hbad|]. exact Hhk.
Qed.

Lemma entries_good : Forall (good_entry E len bits) (map entry_of chs).
Proof.
  apply Forall_forall. intros e He. apply in_map_iff in He. destruct He as (ch & <- & Hin).
  destruct (upload_facts ch Hin) as (cl & r0 & r1 & Hc & Hu & Hlt & Ha & W0 & W1 & Hv & Hk).
  unfold good_entry, entry_of, share0, share1, alpha_of, bucket_of. cbn [e_ok e_r0 e_r1 e_alpha e_beta]. rewrite Hu, Hc.
  split; [exact W0|]. split; [exact W1|]. intros _. split; [exact Hk|]. split; [exact Ha|]. apply one_hot_length.
Qed.
Lemma entries_verdict : Forall (fun e => report_verdict E len vk (e_r0 e) (e_r1 e) (e_ok e)) (map entry_of chs).
Proof.
  apply Forall_forall. intros e He. apply in_map_iff in He. destruct He as (ch & <- & Hin).
  destruct (upload_facts ch Hin) as (cl & r0 & r1 & Hc & Hu & Hlt & Ha & W0 & W1 & Hv & Hk).
  unfold entry_of, share0, share1. cbn [e_ok e_r0 e_r1]. rewrite Hu. exact Hv.
Qed.
Lemma uploads_ret : mapM (make_upload reports) chs = Ret (map (fun ch => (share0 ch, share1 ch)) chs).
Proof.
  apply mapM_ret. intros ch Hin. destruct (upload_facts ch Hin) as (cl & r0 & r1 & Hc & Hu & _). unfold share0, share1. rewrite Hu. reflexivity.
Qed.

(** *** counting ballots *)
Definition of_ballot (b : list bool * nat) : fld * list bool := (of_N 0, fst b).
Lemma supporters_ballots p : map (fun e => (e_alpha e, e_beta e)) (supporters (map entry_of chs) p) =
  map (fun b => (fst b, one_hot len (snd b))) (filter (fun b => is_prefix p (fst b)) (ballots clients chs)).
Proof.
  assert (H : forall l, (forall ch, In ch l -> In ch chs) -> map (fun e => (e_alpha e, e_beta e)) (supporters (map entry_of l) p) =
     map (fun b => (fst b, one_hot len (snd b))) (filter (fun b => is_prefix p (fst b)) (ballots clients l))).
  { induction l as [|ch l IH]; intros Hl; [reflexivity|]. specialize (IH (fun c Hc => Hl c (or_intror Hc))).
    destruct (upload_facts ch (Hl ch (or_introl eq_refl))) as (cl & r0 & r1 & Hc & _).
    unfold ballots in *. cbn [map flat_map]. unfold supporters in *. cbn [filter entry_of e_ok e_alpha].
    unfold alpha_of at 1. rewrite Hc. rewrite filter_app, map_app, <- IH. destruct (counts ch); [|reflexivity]. cbn [andb filter fst].
    destruct (is_prefix p (cl_alpha cl)) eqn:Hp; [|reflexivity]. cbn [map fst snd app]. f_equal. unfold entry_of. cbn [e_alpha e_beta].
    unfold alpha_of, bucket_of. rewrite Hc. reflexivity. }
  apply H. auto.
Qed.
Lemma count_tally p : count (map entry_of chs) p = tally (ballots clients chs) p.
Proof.
  unfold count, tally. pose proof (f_equal (@length _) (supporters_ballots p)) as H. rewrite !map_length in H. congruence.
Qed.
Lemma one_hot_nth m j : j < len -> nth j (one_hot len m) (of_Z 0) = if m =? j then of_Z 1 else of_Z 0.
Proof.
  intros Hj. unfold one_hot. rewrite (nth_map_in _ _ j j) by (rewrite nth_error_seq by exact Hj; reflexivity).
  rewrite Nat.eqb_sym. destruct (m =? j); reflexivity.
Qed.
Lemma weight_tally p j : j < len -> weight (map entry_of chs) p j = of_Z (tally_bucket (ballots clients chs) p j).
Proof.
  intros Hj. unfold weight, tally_bucket.
  assert (Hm : map (fun e => nth j (e_beta e) (of_Z 0)) (supporters (map entry_of chs) p) =
    map (fun b : list bool * nat => if snd b =? j then of_Z 1 else of_Z 0) (filter (fun b => is_prefix p (fst b)) (ballots clients chs))).
  { pose proof (f_equal (map (fun ab : list bool * list fld => nth j (snd ab) (of_Z 0))) (supporters_ballots p)) as H. rewrite !map_map in H. cbn [snd] in H. rewrite H.
    apply map_ext. intros b. apply one_hot_nth. exact Hj. }
  rewrite Hm, (fsum_filter (fun b : list bool * nat => snd b =? j) (fun _ => of_Z 1)), fsum_ones, filter_filter. reflexivity.
Qed.
Lemma results_tally thr l : map (exact_result (map entry_of chs) len) (filter (heavy thr (map entry_of chs)) l) =
  map (tally_result (ballots clients chs) len) (filter (popular thr (ballots clients chs)) l).
Proof.
  assert (Hf : filter (heavy thr (map entry_of chs)) l = filter (popular thr (ballots clients chs)) l) by (apply filter_ext; intros p; unfold heavy, popular; rewrite count_tally; reflexivity).
  rewrite Hf. apply map_ext. intros p. unfold exact_result, tally_result. rewrite count_tally. do 2 f_equal. apply map_ext_in. intros j Hj. apply in_seq in Hj. apply weight_tally. lia.
Qed.

Lemma clients_some : existsb counts chs = true -> clients <> [].
Proof.
  clear -Hrep Hch. intros He ->. cbn [mapM] in Hrep. injection Hrep as <-. destruct chs as [|ch l]; [discriminate|]. inversion Hch as [|? ? [Hi _] _]; subst. cbn in Hi. lia.
Qed.
Lemma main_prelude fuel cfg s0 s1 : cfg_hist cfg = len -> 0 < cfg_add_batch cfg -> hist_ok len = true -> clients <> [] ->
  length chs <= fuel -> running 0 bits s0 -> (exists id, id <> 0%Z /\ running id bits s1) ->
  exists u0 u1, main_whh fuel E cfg clients vk chs s0 s1 = run_whh fuel E cfg u0 u1 (length (map entry_of chs)) /\
  uploaded true len bits vk (map e_r0 (map entry_of chs)) u0 /\ uploaded false len bits vk (map e_r1 (map entry_of chs)) u1.
Proof.
  intros Hh Ha Hist Hne Hf (P0 & I0 & B0) (id & Hid & P1 & I1 & B1).
  unfold main_whh. rewrite Hh, Hist. cbn [negb]. destruct (length clients =? 0) eqn:Hz; [apply Nat.eqb_eq, length_zero_iff_nil in Hz; contradiction|]. rewrite Hrep. cbn [bind].
  assert (Hreset : forall s, s_poison s = false -> handle E s (QReset vk len) = (set_coll s (coll_new len (s_id s) (s_bits s) vk), Ret ADone)).
  { intros s Hp. apply handle_ret. split; [reflexivity|]. split; [exact Hp|]. eexists. split; [|reflexivity]. cbn [body]. rewrite Hist. reflexivity. }
  unfold reset_servers. rewrite Hh. rewrite (proj2 (call2_done_ret _ _ _ _ _ _ _)) by (do 2 eexists; split; apply Hreset; assumption). cbn [bind].
  rewrite (upload_spec fuel E cfg reports chs _ (set_coll s0 (coll_new len (s_id s0) (s_bits s0) vk)) (set_coll s1 (coll_new len (s_id s1) (s_bits s1) vk)) Ha Hf P0 P1 uploads_ret). cbn [bind]. rewrite !map_map. cbn [fst snd].
  exists (with_reports (set_coll s0 (coll_new len (s_id s0) (s_bits s0) vk)) (map share0 chs)), (with_reports (set_coll s1 (coll_new len (s_id s1) (s_bits s1) vk)) (map share1 chs)).
  split; [rewrite map_length; reflexivity|]. split.
  - unfold uploaded. cbn. rewrite I0, B0, P0, !map_map. repeat (split; [reflexivity|]). reflexivity.
  - unfold uploaded. cbn. rewrite I1, B1, P1, !map_map. split; [reflexivity|]. split; [apply Z.eqb_neq; exact Hid|]. repeat (split; [reflexivity|]). reflexivity.
Qed.
Lemma entries_exist : existsb e_ok (map entry_of chs) = existsb counts chs.
Proof. clear. induction chs as [|c l IH]; [reflexivity|]. cbn. rewrite IH. reflexivity. Qed.
Lemma entries_all : forallb e_ok (map entry_of chs) = forallb counts chs.
Proof. clear. induction chs as [|c l IH]; [reflexivity|]. cbn. rewrite IH. reflexivity. Qed.
Lemma heavy_popular thr p : heavy thr (map entry_of chs) p = popular thr (ballots clients chs) p.
Proof. unfold heavy, popular. rewrite count_tally. reflexivity. Qed.

Lemma main_whh_ok fuel cfg s0 s1 : cfg_hist cfg = len -> cfg_bits cfg = Some bits -> 0 < cfg_query_batch cfg -> 0 < cfg_add_batch cfg -> hist_ok len = true -> clients <> [] ->
  length chs <= fuel -> (Z.of_nat (length chs) < 2 ^ 64)%Z -> running 0 bits s0 -> (exists id, id <> 0%Z /\ running id bits s1) ->
  (2 <= bits -> existsb counts chs = true) -> (bits = 1 -> forallb counts chs = true) ->
  (forall l, 1 <= l -> l + 1 < bits -> exists p, length p = l /\ popular (threshold cfg) (ballots clients chs) p = true) ->
  exists t0 t1, main_whh fuel E cfg clients vk chs s0 s1 =
    Ret (t0, t1, map (tally_result (ballots clients chs) len) (filter (popular (threshold cfg) (ballots clients chs)) (all_paths bits))).
Proof.
  intros Hh Hbits Hq Ha Hist Hne Hf Hn R0 R1 He2 He1 Hpop.
  destruct (main_prelude fuel cfg s0 s1 Hh Ha Hist Hne Hf R0 R1) as (u0 & u1 & -> & U0 & U1). rewrite <- results_tally.
  apply (run_whh_ok E Hok len bits (map entry_of chs) vk entries_good); try assumption; rewrite ?map_length; try assumption.
  - intros H2. rewrite entries_exist. split; [apply He2; exact H2|apply entries_verdict].
  - intros H1. rewrite entries_all. apply He1. exact H1.
  - intros l Hl1 Hl2. destruct (Hpop l Hl1 Hl2) as (p & Hp & Hpp). exists p. rewrite heavy_popular. auto.
Qed.

Lemma main_whh_empty fuel cfg s0 s1 l : cfg_hist cfg = len -> cfg_bits cfg = Some bits -> 0 < cfg_query_batch cfg -> 0 < cfg_add_batch cfg -> hist_ok len = true ->
  length chs <= fuel -> (Z.of_nat (length chs) < 2 ^ 64)%Z -> running 0 bits s0 -> (exists id, id <> 0%Z /\ running id bits s1) ->
  existsb counts chs = true -> 1 <= l -> l + 1 < bits -> (forall p, length p = l -> popular (threshold cfg) (ballots clients chs) p = false) ->
  main_whh fuel E cfg clients vk chs s0 s1 = Panic PIndex.
Proof.
  intros Hh Hbits Hq Ha Hist Hf Hn R0 R1 He Hl1 Hl2 Hpop. pose proof (clients_some He) as Hne.
  destruct (main_prelude fuel cfg s0 s1 Hh Ha Hist Hne Hf R0 R1) as (u0 & u1 & -> & U0 & U1).
  apply (run_whh_empty E Hok len bits (map entry_of chs) vk entries_good) with (l := l); try assumption; rewrite ?map_length; try assumption.
  - rewrite entries_exist. exact He.
  - apply entries_verdict.
  - intros p Hp. rewrite heavy_popular. apply Hpop. exact Hp.
Qed.
End Main.

(** *** the statements with the arguments in the order used in PropWhh *)
Lemma randomness_any E len cl r c0 c1 i h0 h1 :
  env_ok E -> gen_report E len cl = Ret r -> length (cl_seed0 cl) = 16 -> length (cl_seed1 cl) = 16 ->
  c_len c0 = len -> c_len c1 = len -> c_vk c1 = c_vk c0 -> (c_sid c0 =? 0)%Z = true -> (c_sid c1 =? 0)%Z = false ->
  nth_error (c_reports c0) i = Some (h0, fst (to_shares r)) -> nth_error (c_reports c1) i = Some (h1, snd (to_shares r)) ->
  flp_joint_rand E c0 i = Ret (prover_joint_rand E len cl) /\ flp_joint_rand E c1 i = Ret (prover_joint_rand E len cl) /\
  flp_query_rand E c0 i = Ret (query_rand E len (c_vk c0) (cl_nonce cl)) /\ flp_query_rand E c1 i = Ret (query_rand E len (c_vk c0) (cl_nonce cl)).
Proof. intros Hok. apply (randomness E). Qed.
Lemma beta_shares_any E k0 k1 alpha beta : env_ok E -> honest_keys E k0 k1 alpha beta -> alpha <> [] ->
  shares_of (beta_share E (length beta) k0) (beta_share E (length beta) k1) beta.
Proof.
  intros Hok (s0 & s1 & H0 & H1 & Hg) Ha. apply (beta_shares E Hok k0 k1 alpha); [apply (gen_honest E s0 s1); assumption|].
  destruct alpha; [contradiction|cbn; lia].
Qed.
Lemma run_whh_any E len bits L vk fuel cfg s0 s1 :
  env_ok E -> Forall (good_entry E len bits) L -> (Z.of_nat (length L) < 2 ^ 64)%Z ->
  cfg_hist cfg = len -> cfg_bits cfg = Some bits -> 0 < cfg_query_batch cfg -> 1 <= bits -> length L <= fuel ->
  uploaded true len bits vk (map e_r0 L) s0 -> uploaded false len bits vk (map e_r1 L) s1 ->
  (2 <= bits -> existsb e_ok L = true /\ Forall (fun e => report_verdict E len vk (e_r0 e) (e_r1 e) (e_ok e)) L) ->
  (bits = 1 -> forallb e_ok L = true) ->
  (forall l, 1 <= l -> l + 1 < bits -> exists p, length p = l /\ heavy (threshold cfg) L p = true) ->
  exists t0 t1, run_whh fuel E cfg s0 s1 (length L) = Ret (t0, t1, map (exact_result L len) (filter (heavy (threshold cfg) L) (all_paths bits))).
Proof. intros. apply (run_whh_ok E) with (vk := vk); assumption. Qed.
Lemma main_light E len bits vk clients reports chs fuel cfg s0 s1 :
  env_ok E -> 2 <= bits -> mapM (gen_report E len) clients = Ret reports ->
  Forall (good_client E len bits vk) clients -> Forall (good_choice E len vk reports) chs ->
  cfg_hist cfg = len -> cfg_bits cfg = Some bits -> 0 < cfg_query_batch cfg -> 0 < cfg_add_batch cfg -> hist_ok len = true ->
  length chs <= fuel -> (Z.of_nat (length chs) < 2 ^ 64)%Z -> running 0 bits s0 -> (exists id, id <> 0%Z /\ running id bits s1) ->
  existsb counts chs = true ->
  (forall l, 1 <= l -> l + 1 < bits -> exists p, length p = l /\ popular (threshold cfg) (ballots clients chs) p = true) ->
  (forall p, length p = bits -> popular (threshold cfg) (ballots clients chs) p = false) ->
  exists t0 t1, main_whh fuel E cfg clients vk chs s0 s1 = Ret (t0, t1, []).
Proof.
  intros Hok Hb Hrep Hcl Hch Hh Hbits Hq Ha Hist Hf Hn R0 R1 He Hpop Hno. pose proof (clients_some E len vk clients reports chs Hrep Hch He) as Hne.
  destruct (main_whh_ok E Hok len bits vk clients reports chs ltac:(lia) Hrep Hcl Hch fuel cfg s0 s1) as (t0 & t1 & Hm); try assumption.
  - intros _. exact He.
  - lia.
  - exists t0, t1. rewrite Hm. do 2 f_equal. assert (Hall : forall ps, (forall p, In p ps -> popular (threshold cfg) (ballots clients chs) p = false) -> filter (popular (threshold cfg) (ballots clients chs)) ps = []).
    { induction ps as [|p ps IH]; intros Hp; [reflexivity|]. cbn [filter]. rewrite (Hp p (or_introl eq_refl)). apply IH. intros; apply Hp; right; assumption. }
    rewrite Hall; [reflexivity|]. intros p Hp. apply Hno. apply all_paths_length. exact Hp.
Qed.
Lemma all_paths_ok bits : sorted_paths (all_paths bits) /\ forall p, In p (all_paths bits) <-> length p = bits.
Proof. split; [apply all_paths_sorted|apply all_paths_length]. Qed.
