(** Plain metrics when the two aggregators need not agree on a report. *)
From Verif Require Import Base BaseFacts Field Util UtilFacts Env Prg Vidpf Merkle Collect Server Driver Modes
  SpecCollect SpecServer SpecDriver SpecMetrics SpecLevel SpecWhh SpecModes SpecVerdict CollectFacts CollectInv ServerFacts DriverFacts MetricsFacts PmFacts LevelFacts WhhFacts WhhMain ModesFacts PmMain.

Lemma somes_rejections (l : list (option (list fld))) : length (somes l) + rejections l = length l.
Proof. apply somes_length. Qed.

Lemma batch_verdicts E cfg vk s0 s1 a vs : hist_ok (cfg_hist cfg) = true -> vs <> [] -> (Z.of_nat (a + length vs) < 2 ^ 64)%Z ->
  verdict_pair E (cfg_hist cfg) vk s0 s1 a vs ->
  if same_number vs then exists t0 t1, pm_batch E cfg s0 s1 a (a + length vs) = Ret (t0, t1, verdict_histogram (cfg_hist cfg) vs)
  else pm_batch E cfg s0 s1 a (a + length vs) = Panic PAssert.
Proof.
  intros Hh Hne Hbig (P0 & P1 & I0 & I1 & L0 & L1 & V0 & V1 & Hrs). set (len := cfg_hist cfg) in *.
  assert (Hlt : a < a + length vs) by (destruct vs; [contradiction|cbn; lia]).
  (* the preparation states of both sides *)
  destruct (forall2_build (fun k (v : option (list fld) * option (list fld)) (x : (bytes * bytes) * (bytes * bytes)) =>
     let '((st0, sh0), (st1, sh1)) := x in
     (exists h nonce pub inp, nth_error (c_reports (s_coll s0)) (a + k) = Some (h, RSPrio3 nonce pub inp) /\ p3_prep_init E len vk 0 nonce pub inp = Some (st0, sh0)) /\
     (exists h nonce pub inp, nth_error (c_reports (s_coll s1)) (a + k) = Some (h, RSPrio3 nonce pub inp) /\ p3_prep_init E len vk 1 nonce pub inp = Some (st1, sh1)) /\
     pm_ok1 E len 0 st0 sh0 sh1 (fst v) /\ pm_ok1 E len 1 st1 sh1 sh0 (snd v) /\
     (forall o, fst v = Some o -> length o = len) /\ (forall o, snd v = Some o -> length o = len)) vs) as (xs & Hxl & Hxs).
  { intros k [v0 v1] Hk. destruct (Hrs k _ Hk) as (h0 & r0 & h1 & r1 & Hr0 & Hr1 & nonce & pub & i0 & nonce' & pub' & i1 & st0 & sh0 & st1 & sh1 & -> & -> & Hi0 & Hi1 & Hd0 & Hd1 & S0 & S1).
    exists ((st0, sh0), (st1, sh1)). split; [eauto 8|]. split; [eauto 8|]. cbn [fst snd] in *. unfold pm_ok1. cbn [Z.eqb].
    split; [split; [assumption|]; destruct v0; [exact (proj2 S0)|exact S0]|]. split; [split; [assumption|]; destruct v1; [exact (proj2 S1)|exact S1]|].
    split; intros o ->; [apply S0|apply S1]. }
  set (sts0 := map fst xs). set (sts1 := map snd xs). set (os0 := map fst vs). set (os1 := map snd vs).
  assert (Hat : forall k x, nth_error xs k = Some x -> exists v, nth_error vs k = Some v).
  { intros k x Hk. destruct (nth_error vs k) eqn:Hr; [eauto|]. apply nth_error_None in Hr. assert (k < length xs) by (apply nth_error_Some; congruence). lia. }
  assert (HL0 : length sts0 = length vs) by (unfold sts0; rewrite map_length; exact Hxl).
  assert (HL1 : length sts1 = length vs) by (unfold sts1; rewrite map_length; exact Hxl).
  assert (HO0 : length os0 = length vs) by apply map_length. assert (HO1 : length os1 = length vs) by apply map_length.
  (* validation *)
  destruct (pm_validate_run E (s_coll s0) (s_id s0) a sts0) as (c0 & Hv0 & Hlen0 & Hg0).
  { rewrite L0. exact Hh. } { rewrite I0. lia. }
  { intros k st sh Hk. unfold sts0 in Hk. rewrite nth_error_map' in Hk. destruct (nth_error xs k) as [[[st0 sh0] [st1 sh1]]|] eqn:Hx; [|discriminate]. cbn in Hk. injection Hk as <- <-.
    destruct (Hat _ _ Hx) as [v Hv]. pose proof (Hxs k v _ Hv Hx) as (HA & _). rewrite I0, L0, V0. exact HA. }
  destruct (pm_validate_run E (s_coll s1) (s_id s1) a sts1) as (c1 & Hv1 & Hlen1 & Hg1).
  { rewrite L1. exact Hh. } { rewrite I1. lia. }
  { intros k st sh Hk. unfold sts1 in Hk. rewrite nth_error_map' in Hk. destruct (nth_error xs k) as [[[st0 sh0] [st1 sh1]]|] eqn:Hx; [|discriminate]. cbn in Hk. injection Hk as <- <-.
    destruct (Hat _ _ Hx) as [v Hv]. pose proof (Hxs k v _ Hv Hx) as (_ & HA & _). rewrite I1, L1, V1. exact HA. }
  rewrite HL0 in Hv0. rewrite HL1 in Hv1.
  (* results *)
  destruct (pm_loop_run E len 0 sts0 (map snd sts1) os0 a (c_pm c0)) as [m0 Hm0].
  { rewrite map_length. lia. } { lia. } { exact Hg0. }
  { intros k st sh peer o H1 H2 H3. unfold sts0, sts1, os0 in *. rewrite !nth_error_map' in *. destruct (nth_error xs k) as [[[st0 sh0] [st1 sh1]]|] eqn:Hx; [|discriminate].
    destruct (Hat _ _ Hx) as [v Hv]. rewrite Hv in H3. cbn in *. pose proof (Hxs k v _ Hv Hx) as (_ & _ & HA & _). congruence. }
  destruct (pm_loop_run E len 1 sts1 (map snd sts0) os1 a (c_pm c1)) as [m1 Hm1].
  { rewrite map_length. lia. } { lia. } { exact Hg1. }
  { intros k st sh peer o H1 H2 H3. unfold sts0, sts1, os1 in *. rewrite !nth_error_map' in *. destruct (nth_error xs k) as [[[st0 sh0] [st1 sh1]]|] eqn:Hx; [|discriminate].
    destruct (Hat _ _ Hx) as [v Hv]. rewrite Hv in H3. cbn in *. pose proof (Hxs k v _ Hv Hx) as (_ & _ & _ & HA & _). congruence. }
  rewrite HL0 in Hm0. rewrite HL1 in Hm1.
  assert (Hlens : Forall (fun o => length o = len) (somes os0) /\ Forall (fun o => length o = len) (somes os1)).
  { assert (Hin : forall v, In v vs -> (forall o, fst v = Some o -> length o = len) /\ (forall o, snd v = Some o -> length o = len)).
    { intros v Hv. apply In_nth_error in Hv. destruct Hv as [k Hk]. destruct (nth_error xs k) as [[[st0 sh0] [st1 sh1]]|] eqn:Hx.
      - apply (Hxs k v _ Hk Hx).
      - apply nth_error_None in Hx. assert (k < length vs) by (apply nth_error_Some; congruence). lia. }
    unfold os0, os1, somes. clear -Hin. split; (induction vs as [|v vs IH]; cbn [map concat]; [constructor|]); (apply Forall_app; split; [|apply IH; intros w Hw; apply Hin; right; exact Hw]);
      destruct (Hin v (or_introl eq_refl)) as [H0 H1].
    - destruct (fst v) as [o|]; [constructor; [apply H0; reflexivity|constructor]|constructor].
    - destruct (snd v) as [o|]; [constructor; [apply H1; reflexivity|constructor]|constructor]. }
  destruct Hlens as [F0 F1].
  destruct (p3_aggregate_spec len (somes os0) F0) as (g0 & Hg0a & Hg0l & Hg0n).
  destruct (p3_aggregate_spec len (somes os1) F1) as (g1 & Hg1a & Hg1l & Hg1n).
  destruct (p3_aggregate_spec len [g0; g1]) as (g & Hga & Hgl & Hgn). { repeat constructor; assumption. }
  assert (Hrej : forall os, length os = length vs -> ((Z.of_nat (a + length vs) - Z.of_nat a - Z.of_nat (length (somes os))) mod 2 ^ 64)%Z = Z.of_nat (rejections os)).
  { intros os Hos. pose proof (somes_rejections os) as Hsl. rewrite Z.mod_small; lia. }
  assert (Hd1 : forall s p, s_poison s = false -> forall cc r, body E s p = Ret (cc, r) -> prelock E p = Ret tt -> handle E s p = (set_coll s cc, Ret r)).
  { intros s p Hp cc r Hb Hpl. apply handle_ret. eauto 8. }
  assert (Hstart : pm_batch E cfg s0 s1 a (a + length vs) =
    do! assert_ (Z.of_nat (rejections os0) =? Z.of_nat (rejections os1))%Z;
    Ret (set_coll (set_coll s0 c0) (set_pm c0 m0), set_coll (set_coll s1 c1) (set_pm c1 m1), (map fval g, Z.of_nat (rejections os0)))).
  { unfold pm_batch.
    rewrite (proj2 (call2_ret E s0 s1 _ _ (set_coll s0 c0) (set_coll s1 c1) (APm (map snd sts0)) (APm (map snd sts1)))).
    2:{ split; apply Hd1; cbn [body prelock]; try assumption; try (rewrite Hv0; reflexivity); try (rewrite Hv1; reflexivity); apply debug_assert_true, Nat.ltb_lt; exact Hlt. }
    cbn [bind]. rewrite !map_length. replace (a + length vs - a) with (length vs) by lia. rewrite HL0, HL1, Nat.eqb_refl. cbn [assert_ bind].
    rewrite (proj2 (call2_ret E _ _ _ _ (set_coll (set_coll s0 c0) (set_pm c0 m0)) (set_coll (set_coll s1 c1) (set_pm c1 m1)) (APmResult g0 (Z.of_nat (rejections os0))) (APmResult g1 (Z.of_nat (rejections os1))))).
    2:{ split; apply Hd1; cbn [body prelock set_coll s_poison s_coll s_id]; try assumption; try (apply debug_assert_true, Nat.ltb_lt; exact Hlt); unfold pm_result;
        rewrite ?Hlen0, ?Hlen1, ?L0, ?L1, ?Hh, ?I0, ?I1; cbn [negb]; replace (a + length vs - a) with (length vs) by lia; rewrite ?Hm0, ?Hm1; cbn [bind];
        rewrite ?Hg0a, ?Hg1a; cbn [unwrap bind]; rewrite Hrej by assumption; reflexivity. }
    cbn [bind]. destruct (_ =? _)%Z; [|reflexivity]. cbn [assert_ bind]. rewrite count_fine by (pose proof (somes_rejections os0); lia). cbn [bind]. unfold p3_unshard. fold len. rewrite Hga. reflexivity. }
  rewrite Hstart. unfold same_number. fold os0 os1. destruct (Nat.eqb_spec (rejections os0) (rejections os1)) as [He|He].
  - rewrite He, Z.eqb_refl. cbn [assert_ bind]. assert (Hgv : map fval g = map (fun j => fval (fadd (fsum (map (fun o => nth j o (of_Z 0)) (somes os0))) (fsum (map (fun o => nth j o (of_Z 0)) (somes os1))))) (seq 0 len));
      [|unfold verdict_histogram; fold os0 os1; rewrite He, Hgv; do 2 eexists; reflexivity].
    apply nth_seq_map with (d := 0%Z); [|rewrite map_length; exact Hgl]. intros j Hj. rewrite (nth_indep _ 0%Z (fval (of_Z 0))) by (rewrite map_length; lia).
    rewrite map_nth. f_equal. rewrite Hgn by exact Hj. cbn [map fsum]. rewrite Hg0n, Hg1n by exact Hj. change (of_Z 0) with fzero. ring.
  - destruct (Z.eqb_spec (Z.of_nat (rejections os0)) (Z.of_nat (rejections os1))) as [Hz|Hz]; [lia|]. reflexivity.
Qed.

Lemma verdict_pair_part E len vk s0 s1 l1 l2 l3 : verdict_pair E len vk s0 s1 0 (l1 ++ l2 ++ l3) -> verdict_pair E len vk s0 s1 (length l1) l2.
Proof.
  intros (A & B & C & D & F & G & H & I & J). repeat (split; [assumption|]). intros k res Hk. apply (J (length l1 + k)).
  rewrite nth_error_app2 by lia. replace (length l1 + k - length l1) with k by lia. rewrite nth_error_app1; [exact Hk|]. apply nth_error_Some. congruence.
Qed.
Lemma verdict_pair_frame E len vk s0 s1 t0 t1 rs : verdict_pair E len vk s0 s1 0 rs -> frame s0 t0 -> frame s1 t1 -> verdict_pair E len vk t0 t1 0 rs.
Proof.
  intros (A & B & C & D & F & G & H & I & J) (a0 & b0 & c0 & d0 & e0) (a1 & b1 & c1 & d1 & e1). unfold verdict_pair. rewrite a0, a1, b0, b1, c0, c1, d0, d1, e0, e1.
  repeat (split; [assumption|]). exact J.
Qed.
Lemma batches_verdicts E cfg vk all : hist_ok (cfg_hist cfg) = true -> 0 < cfg_query_batch cfg -> (Z.of_nat (length all) < 2 ^ 64)%Z ->
  forall fuel l1 rest s0 s1, all = l1 ++ rest -> length rest <= fuel -> verdict_pair E (cfg_hist cfg) vk s0 s1 0 all ->
  if forallb same_number (pieces (cfg_query_batch cfg) rest) then
  exists t0 t1, pm_batches E cfg s0 s1 (length all) (steps fuel (length l1) (length all) (cfg_query_batch cfg)) =
    Ret (t0, t1, map (verdict_histogram (cfg_hist cfg)) (pieces (cfg_query_batch cfg) rest))
  else pm_batches E cfg s0 s1 (length all) (steps fuel (length l1) (length all) (cfg_query_batch cfg)) = Panic PAssert.
Proof.
  intros Hh Hb Hbig. set (b := cfg_query_batch cfg) in *.
  induction fuel as [|fuel IH]; intros l1 rest s0 s1 Hall Hf Hp; cbn [steps].
  - destruct rest; [|cbn in Hf; lia]. rewrite pieces_nil by exact Hb. cbn. eauto.
  - assert (Hll : length all = length l1 + length rest) by (rewrite Hall; apply app_length).
    destruct (length l1 <? length all) eqn:Hlt.
    2:{ apply Nat.ltb_ge in Hlt. destruct rest; [|cbn in Hll; lia]. rewrite pieces_nil by exact Hb. cbn. eauto. }
    apply Nat.ltb_lt in Hlt. cbn [pm_batches]. fold b.
    assert (Hr : rest = firstn b rest ++ skipn b rest) by (symmetry; apply firstn_skipn).
    assert (Hlw : length (firstn b rest) = Nat.min b (length rest)) by apply firstn_length.
    assert (Hne : firstn b rest <> []) by (intros Hc; rewrite Hc in Hlw; cbn in Hlw; lia).
    replace (Nat.min (length all) (length l1 + b)) with (length l1 + length (firstn b rest)) by lia.
    assert (Hp1 : verdict_pair E (cfg_hist cfg) vk s0 s1 (length l1) (firstn b rest)).
    { apply verdict_pair_part with (l3 := skipn b rest). rewrite <- Hr, <- Hall. exact Hp. }
    rewrite (pieces_cons b rest); [|exact Hb|intros Hc; rewrite Hc in Hll; cbn in Hll; lia]. cbn [forallb map].
    pose proof (batch_verdicts E cfg vk s0 s1 (length l1) (firstn b rest) Hh Hne ltac:(lia) Hp1) as Hrun.
    destruct (same_number (firstn b rest)); cbn [andb]; [|rewrite Hrun; reflexivity].
    destruct Hrun as (t0 & t1 & Hrun). destruct (pm_batch_frame _ _ _ _ _ _ _ _ _ Hrun) as [F0 F1]. rewrite Hrun. cbn [bind].
    assert (Hst : steps fuel (length (l1 ++ firstn b rest)) (length all) b = steps fuel (length l1 + b) (length all) b).
    { rewrite app_length. destruct (Nat.le_gt_cases b (length rest)) as [Hle|Hgt]; [rewrite Hlw; f_equal; lia|].
      rewrite !(steps_spec cfg _ eq_refl) by lia. replace (length all - (length l1 + length (firstn b rest))) with 0 by lia. replace (length all - (length l1 + b)) with 0 by lia. rewrite Nat.div_small by lia. reflexivity. }
    rewrite <- Hst. specialize (IH (l1 ++ firstn b rest) (skipn b rest) t0 t1). rewrite <- app_assoc, <- Hr in IH. specialize (IH Hall ltac:(rewrite skipn_length; lia) ltac:(eapply verdict_pair_frame; eauto)).
    destruct (forallb same_number (pieces b (skipn b rest))).
    + destruct IH as (u0 & u1 & Hu). rewrite Hu. cbn [bind]. eauto.
    + rewrite IH. reflexivity.
Qed.
Theorem run_verdicts E cfg vk vs s0 s1 : hist_ok (cfg_hist cfg) = true -> 0 < cfg_query_batch cfg -> (Z.of_nat (length vs) < 2 ^ 64)%Z ->
  verdict_pair E (cfg_hist cfg) vk s0 s1 0 vs ->
  if forallb same_number (pieces (cfg_query_batch cfg) vs) then
    exists t0 t1, run_pm E cfg s0 s1 (length vs) = Ret (t0, t1, map (verdict_histogram (cfg_hist cfg)) (pieces (cfg_query_batch cfg) vs))
  else run_pm E cfg s0 s1 (length vs) = Panic PAssert.
Proof.
  intros Hh Hb Hbig Hp. unfold run_pm, step_by. rewrite Hh, (proj2 (Nat.eqb_neq _ _)) by lia. cbn [negb bind].
  apply (batches_verdicts E cfg vk vs Hh Hb Hbig (length vs) [] vs s0 s1 eq_refl (Nat.le_refl _) Hp).
Qed.
