(** Proofs for C86. *)
From Verif Require Import Base BaseFacts Field Util UtilFacts Env Prg Vidpf Merkle Collect Server ServerFacts Driver DriverFacts Modes SpecPrg Sched SpecSched SchedFacts SchedRun System SystemFacts
  SpecVidpf SpecCollect SpecLevel SpecWhh SpecMetrics SpecModes CollectFacts VidpfFacts MetricsFacts PmFacts LevelFacts WhhFacts ModesFacts ModesMain PmMain SpecTamper TamperFacts SpecSuppress.
From Coq Require Import Lia Bool.

Lemma numbered_nth {A} (l : list A) k : nth_error (numbered l) k = option_map (fun x => (k, x)) (nth_error l k).
Proof.
  unfold numbered. assert (G : forall (l : list A) s k, nth_error (combine (seq s (length l)) l) k = option_map (fun x => (s + k, x)) (nth_error l k)).
  { clear. induction l as [|x l IH]; intros s [|k]; cbn; try reflexivity; [rewrite Nat.add_0_r; reflexivity|]. rewrite IH. replace (s + S k) with (S s + k) by lia. reflexivity. }
  apply (G l 0).
Qed.

Lemma raised_nth d v j : j < length v -> nth j (raised d v) (of_Z 0) = fadd (nth j v (of_Z 0)) (d j).
Proof.
  intros Hj. apply nth_error_nth. unfold raised. rewrite nth_error_map', numbered_nth. destruct (nth_error v j) as [x|] eqn:Hx; [|apply nth_error_None in Hx; lia].
  cbn [option_map fst snd]. rewrite (nth_error_nth _ _ _ Hx). reflexivity.
Qed.

Section Suppress.
Variables (E : env) (len : nat) (vk : bytes) (who full : bool) (sp : bytes -> bytes) (D : nat -> bool) (out : nat -> list fld).
Notation run := (tampered E who (suppress full sp D out)).
Notation hits a n := (filter D (seq a n)).

(** the outputs of both sides for the report at position i, of which [res] is printed *)
Definition one (i : nat) (res o0 o1 : option (list fld)) : Prop :=
  if D i then res = None /\ length (out i) = len /\ (o0, o1) = (if who then (Some (out i), None) else (None, Some (out i)))
  else match res, o0, o1 with
       | None, None, None => True
       | Some beta, Some p, Some q => length p = len /\ length q = len /\ forall j, j < len -> fadd (nth j p (of_Z 0)) (nth j q (of_Z 0)) = nth j beta (of_Z 0)
       | _, _, _ => False end.
Fixpoint outs_ok (a : nat) (rs : list (option (list fld))) (os : list (option (list fld) * option (list fld))) : Prop :=
  match rs, os with
  | [], [] => True
  | res :: rs', (o0, o1) :: os' => one a res o0 o1 /\ outs_ok (S a) rs' os'
  | _, _ => False
  end.
Lemma somes_cons {A} (o : option A) l : somes (o :: l) = match o with Some x => x :: somes l | None => somes l end.
Proof. destruct o; reflexivity. Qed.
Lemma outs_sum j : j < len -> forall rs os a, outs_ok a rs os ->
  fadd (fsum (map (fun o => nth j o (of_Z 0)) (somes (map fst os)))) (fsum (map (fun o => nth j o (of_Z 0)) (somes (map snd os)))) =
  fadd (fsum (map (fun o => nth j o (of_Z 0)) (somes rs))) (fsum (map (fun i => nth j (out i) (of_Z 0)) (hits a (length rs)))).
Proof.
  intros Hj. induction rs as [|res rs IH]; intros [|[o0 o1] os] a H; cbn [outs_ok] in H; try contradiction; [cbn; change (of_Z 0) with fzero; ring|]. destruct H as [H1 H]. specialize (IH os (S a) H).
  cbn [map fst snd length seq filter]. rewrite !somes_cons. unfold one in H1. destruct (D a).
  - destruct H1 as (-> & _ & He). destruct who; injection He as -> ->; cbn [map fsum];
      match goal with |- ?g => match type of IH with ?l = ?r => transitivity (fadd (nth j (out a) (of_Z 0)) l); [ring|rewrite IH; ring] end end.
  - destruct res as [beta|], o0 as [p|], o1 as [q|]; try contradiction; [|exact IH]. destruct H1 as (_ & _ & H1). cbn [map fsum]. rewrite <- (H1 j Hj).
    match type of IH with ?l = ?r => transitivity (fadd (fadd (nth j p (of_Z 0)) (nth j q (of_Z 0))) l); [ring|rewrite IH; ring] end.
Qed.
Lemma outs_count : forall rs os a, outs_ok a rs os ->
  length (somes (map fst os)) = length (somes rs) + (if who then length (hits a (length rs)) else 0) /\
  length (somes (map snd os)) = length (somes rs) + (if who then 0 else length (hits a (length rs))).
Proof.
  induction rs as [|res rs IH]; intros [|[o0 o1] os] a H; cbn [outs_ok] in H; try contradiction; [cbn; destruct who; auto|]. destruct H as [H1 H]. specialize (IH os (S a) H).
  cbn [map fst snd length seq filter]. rewrite !somes_cons. unfold one in H1. destruct (D a).
  - destruct H1 as (-> & _ & He). destruct who; injection He as -> ->; cbn [length]; lia.
  - destruct res as [beta|], o0 as [p|], o1 as [q|]; try contradiction; cbn [length]; lia.
Qed.
Lemma outs_lens : forall rs os a, outs_ok a rs os -> Forall (fun o => length o = len) (somes (map fst os)) /\ Forall (fun o => length o = len) (somes (map snd os)).
Proof.
  induction rs as [|res rs IH]; intros [|[o0 o1] os] a H; cbn [outs_ok] in H; try contradiction; [split; constructor|]. destruct H as [H1 H]. specialize (IH os (S a) H). destruct IH as [I1 I2].
  cbn [map fst snd]. rewrite !somes_cons. unfold one in H1. destruct (D a).
  - destruct H1 as (_ & Hl & He). destruct who; injection He as -> ->; split; try assumption; constructor; assumption.
  - destruct res as [beta|], o0 as [p|], o1 as [q|]; try contradiction; [|split; assumption]. destruct H1 as (L0 & L1 & _). split; constructor; assumption.
Qed.

(** a pair of aggregators with such reports *)
Definition spot (i : nat) (r0 r1 : report_share) (res : option (list fld)) : Prop :=
  if D i then res = None /\ suppressible E len vk who sp r0 r1 (out i) else p3_run E len vk r0 r1 res.
Definition spot_pair (s0 s1 : server) (a : nat) (rs : list (option (list fld))) : Prop :=
  s_poison s0 = false /\ s_poison s1 = false /\ s_id s0 = 0%Z /\ s_id s1 = 1%Z /\
  c_len (s_coll s0) = len /\ c_len (s_coll s1) = len /\ c_vk (s_coll s0) = vk /\ c_vk (s_coll s1) = vk /\
  forall k res, nth_error rs k = Some res -> exists h0 r0 h1 r1,
    nth_error (c_reports (s_coll s0)) (a + k) = Some (h0, r0) /\ nth_error (c_reports (s_coll s1)) (a + k) = Some (h1, r1) /\ spot (a + k) r0 r1 res.
Definition sent0 (i : nat) (sh : bytes) : bytes := if who && D i then sp sh else sh.
Definition sent1 (i : nat) (sh : bytes) : bytes := if negb who && D i then sp sh else sh.
(** one report *)
Definition prepared (s0 s1 : server) (i : nat) (res : option (list fld)) (x : (bytes * bytes) * (bytes * bytes) * (option (list fld) * option (list fld))) : Prop :=
  let '((st0, sh0), (st1, sh1), (o0, o1)) := x in
  (exists h nonce pub inp, nth_error (c_reports (s_coll s0)) i = Some (h, RSPrio3 nonce pub inp) /\ p3_prep_init E len vk 0 nonce pub inp = Some (st0, sh0)) /\
  (exists h nonce pub inp, nth_error (c_reports (s_coll s1)) i = Some (h, RSPrio3 nonce pub inp) /\ p3_prep_init E len vk 1 nonce pub inp = Some (st1, sh1)) /\
  pm_ok1 E len 0 st0 sh0 (sent1 i sh1) o0 /\ pm_ok1 E len 1 st1 sh1 (sent0 i sh0) o1 /\ one i res o0 o1.
Lemma spot_prepared s0 s1 a rs k res : spot_pair s0 s1 a rs -> nth_error rs k = Some res -> exists x, prepared s0 s1 (a + k) res x.
Proof.
  intros (_ & _ & _ & _ & _ & _ & _ & _ & H) Hk. destruct (H k res Hk) as (h0 & r0 & h1 & r1 & Hr0 & Hr1 & Hs). clear H Hk. unfold spot in Hs. unfold prepared, one, sent0, sent1. destruct (D (a + k)) eqn:HD.
  - destruct Hs as (-> & nonce & pub & i0 & nonce' & pub' & i1 & st0 & sh0 & st1 & sh1 & m & -> & -> & Hi0 & Hi1 & Hm & Hl & Hc).
    destruct who; destruct Hc as (Hd & Hn & Hd' & Href); cbn [andb negb].
    + exists ((st0, sh0), (st1, sh1), (Some (out (a + k)), None)). split; [eauto 8|]. split; [eauto 8|]. unfold pm_ok1. cbn. split; [eauto|]. split; [split; [exact Hd'|exact Href]|]. auto.
    + exists ((st0, sh0), (st1, sh1), (None, Some (out (a + k)))). split; [eauto 8|]. split; [eauto 8|]. unfold pm_ok1. cbn. split; [split; [exact Hd'|exact Href]|]. split; [eauto|]. auto.
  - rewrite !andb_false_r. destruct Hs as (nonce & pub & i0 & nonce' & pub' & i1 & st0 & sh0 & st1 & sh1 & -> & -> & Hi0 & Hi1 & Hd0 & Hd1 & Hres).
    destruct res as [beta|].
    + destruct Hres as (m & o0 & o1 & Hm & Hn0 & Hn1 & Ho0 & Ho1 & _ & Hsum). exists ((st0, sh0), (st1, sh1), (Some o0, Some o1)).
      split; [eauto 8|]. split; [eauto 8|]. unfold pm_ok1. cbn. split; [eauto|]. split; [eauto|]. auto.
    + exists ((st0, sh0), (st1, sh1), (None, None)). split; [eauto 8|]. split; [eauto 8|]. unfold pm_ok1. cbn.
      destruct Hres as [Hm|(m & Hm & Hn0 & Hn1)]; (split; [split; [assumption|eauto]|]); (split; [split; [assumption|eauto]|exact I]).
Qed.
Lemma suppress_batch cfg s0 s1 a rs : cfg_hist cfg = len -> hist_ok len = true -> rs <> [] -> (Z.of_nat (a + length rs) < 2 ^ 64)%Z -> spot_pair s0 s1 a rs ->
  exists t0 t1, run (pm_batch_p E cfg a (a + length rs)) s0 s1 =
    (if full || (length (hits a (length rs)) =? 0) then Ret (t0, t1, sum_histogram len rs) else Panic PAssert) /\ frame s0 t0 /\ frame s1 t1.
Proof.
  intros Hcl Hh Hne Hbig Hsp. pose proof Hsp as (P0 & P1 & I0 & I1 & L0 & L1 & V0 & V1 & _).
  assert (Hlt : a < a + length rs) by (destruct rs; [contradiction|cbn; lia]).
  destruct (forall2_build (fun k res x => prepared s0 s1 (a + k) res x) rs) as (xs & Hxl & Hxs).
  { intros k res Hk. exact (spot_prepared _ _ _ _ _ _ Hsp Hk). }
  set (sts0 := map (fun x => fst (fst x)) xs). set (sts1 := map (fun x => snd (fst x)) xs).
  assert (Hat : forall k x, nth_error xs k = Some x -> exists res, nth_error rs k = Some res).
  { intros k x Hk. destruct (nth_error rs k) eqn:Hr; [eauto|]. apply nth_error_None in Hr. assert (k < length xs) by (apply nth_error_Some; congruence). lia. }
  assert (HL0 : length sts0 = length rs) by (unfold sts0; rewrite map_length; exact Hxl).
  assert (HL1 : length sts1 = length rs) by (unfold sts1; rewrite map_length; exact Hxl).
  assert (Hok : outs_ok a rs (map snd xs)).
  { clear -Hxl Hxs. revert xs Hxl Hxs. generalize a. induction rs as [|r rs IH]; intros a' xs Hl Hxs; destruct xs as [|x xs]; try discriminate; [exact I|]. cbn [map outs_ok].
    pose proof (Hxs 0 r x eq_refl eq_refl) as Hx. rewrite Nat.add_0_r in Hx. destruct x as [[[st0 sh0] [st1 sh1]] [o0 o1]]. cbn [snd]. split; [apply Hx|].
    apply IH; [cbn in Hl; lia|]. intros i ra xb Hi Hb. specialize (Hxs (S i) ra xb Hi Hb). replace (S a' + i) with (a' + S i) by lia. exact Hxs. }
  destruct (pm_validate_run E (s_coll s0) (s_id s0) a sts0) as (c0 & Hv0 & Hlen0 & Hg0).
  { rewrite L0. exact Hh. } { rewrite I0. lia. }
  { intros k st sh Hk. unfold sts0 in Hk. rewrite nth_error_map' in Hk. destruct (nth_error xs k) as [[[[st0 sh0] [st1 sh1]] [o0 o1]]|] eqn:Hx; [|discriminate]. cbn in Hk. injection Hk as <- <-.
    destruct (Hat _ _ Hx) as [res Hr]. pose proof (Hxs k res _ Hr Hx) as (HA & _). rewrite I0, L0, V0. exact HA. }
  destruct (pm_validate_run E (s_coll s1) (s_id s1) a sts1) as (c1 & Hv1 & Hlen1 & Hg1).
  { rewrite L1. exact Hh. } { rewrite I1. lia. }
  { intros k st sh Hk. unfold sts1 in Hk. rewrite nth_error_map' in Hk. destruct (nth_error xs k) as [[[[st0 sh0] [st1 sh1]] [o0 o1]]|] eqn:Hx; [|discriminate]. cbn in Hk. injection Hk as <- <-.
    destruct (Hat _ _ Hx) as [res Hr]. pose proof (Hxs k res _ Hr Hx) as (_ & HA & _). rewrite I1, L1, V1. exact HA. }
  pose proof (pm_validate_frame _ _ _ _ _ _ _ Hv0) as [z0 Hz0]. pose proof (pm_validate_frame _ _ _ _ _ _ _ Hv1) as [z1 Hz1].
  rewrite HL0 in Hv0. rewrite HL1 in Hv1.
  set (peers0 := map (fun ix => sent0 (a + fst ix) (snd ix)) (numbered (map snd sts0))). set (peers1 := map (fun ix => sent1 (a + fst ix) (snd ix)) (numbered (map snd sts1))).
  assert (HP0 : length peers0 = length rs) by (unfold peers0, numbered; rewrite map_length, combine_length, seq_length, map_length; lia).
  assert (HP1 : length peers1 = length rs) by (unfold peers1, numbered; rewrite map_length, combine_length, seq_length, map_length; lia).
  destruct (pm_loop_run E len 0 sts0 peers1 (map fst (map snd xs)) a (c_pm c0)) as [m0 Hm0].
  { lia. } { rewrite !map_length. lia. } { exact Hg0. }
  { intros k st sh peer o H1 H2 H3. unfold peers1 in H2. rewrite nth_error_map', numbered_nth in H2. unfold sts0, sts1 in H1, H2. rewrite !nth_error_map' in H1. rewrite !nth_error_map' in H2. rewrite !nth_error_map' in H3. destruct (nth_error xs k) as [[[[st0 sh0] [st1 sh1]] [o0 o1]]|] eqn:Hx; [|discriminate]. cbn in H1, H2, H3.
    destruct (Hat _ _ Hx) as [res Hr]. pose proof (Hxs k res _ Hr Hx) as (_ & _ & HA & _). congruence. }
  destruct (pm_loop_run E len 1 sts1 peers0 (map snd (map snd xs)) a (c_pm c1)) as [m1 Hm1].
  { lia. } { rewrite !map_length. lia. } { exact Hg1. }
  { intros k st sh peer o H1 H2 H3. unfold peers0 in H2. rewrite nth_error_map', numbered_nth in H2. unfold sts0, sts1 in H1, H2. rewrite !nth_error_map' in H1. rewrite !nth_error_map' in H2. rewrite !nth_error_map' in H3. destruct (nth_error xs k) as [[[[st0 sh0] [st1 sh1]] [o0 o1]]|] eqn:Hx; [|discriminate]. cbn in H1, H2, H3.
    destruct (Hat _ _ Hx) as [res Hr]. pose proof (Hxs k res _ Hr Hx) as (_ & _ & _ & HA & _). congruence. }
  rewrite HL0 in Hm0. rewrite HL1 in Hm1. destruct (outs_lens _ _ _ Hok) as [F0 F1]. destruct (outs_count _ _ _ Hok) as [N0 N1].
  destruct (p3_aggregate_spec len _ F0) as (g0 & Hg0a & Hg0l & Hg0n). destruct (p3_aggregate_spec len _ F1) as (g1 & Hg1a & Hg1l & Hg1n).
  pose proof (fun j Hj => outs_sum j Hj _ _ _ Hok) as Hsum.
  pose proof (somes_length rs) as Hsl. assert (Hhl : length (hits a (length rs)) <= length rs) by (rewrite <- (seq_length (length rs) a) at 2; generalize (seq a (length rs)); clear; induction l as [|x l IH]; cbn; [lia|destruct (D x); cbn; lia]).
  set (n := length (hits a (length rs))) in *. set (rej := length (filter (fun o : option (list fld) => match o with None => true | Some _ => false end) rs)) in *.
  assert (Hn : n <= rej).
  { unfold n, rej. clear -Hok. revert a Hok. generalize (map snd xs) as os. induction rs as [|res rs IH]; intros [|[o0 o1] os] a H; cbn [outs_ok] in H; try contradiction; [cbn; lia|]. destruct H as [H1 H]. specialize (IH _ _ H).
    cbn [length seq filter]. unfold one in H1. destruct (D a); [destruct H1 as (-> & _); cbn [length]; lia|]. destruct res; cbn [length]; lia. }
  set (n0 := Z.of_nat (rej - (if who then n else 0))). set (n1 := Z.of_nat (rej - (if who then 0 else n))).
  assert (Hd1 : forall s p, s_poison s = false -> forall cc r, body E s p = Ret (cc, r) -> prelock E p = Ret tt -> handle E s p = (set_coll s cc, Ret r)).
  { intros s p Hp cc r Hb Hpl. apply handle_ret. eauto 8. }
  exists (set_coll (set_coll s0 c0) (set_pm c0 m0)), (set_coll (set_coll s1 c1) (set_pm c1 m1)).
  split; [|rewrite Hz0, Hz1; split; repeat split].
  unfold pm_batch_p. cbv zeta. cbn [tampered].
  rewrite (proj2 (call2_ret E s0 s1 _ _ (set_coll s0 c0) (set_coll s1 c1) (APm (map snd sts0)) (APm (map snd sts1)))).
  2:{ split; apply Hd1; cbn [body prelock]; try assumption; try (rewrite Hv0; reflexivity); try (rewrite Hv1; reflexivity); apply debug_assert_true, Nat.ltb_lt; exact Hlt. }
  cbn [bind].
  assert (R0 : (if who then suppress full sp D out (QPmValidate a (a + length rs)) (APm (map snd sts0)) else APm (map snd sts0)) = APm peers0).
  { unfold peers0, sent0, suppress. destruct who; cbn [andb]; [reflexivity|]. f_equal. symmetry. unfold numbered. generalize (map snd sts0) as l, 0. induction l as [|x l IH]; intros s; [reflexivity|]. cbn [length seq combine map]. rewrite IH. reflexivity. }
  assert (R1 : (if who then APm (map snd sts1) else suppress full sp D out (QPmValidate a (a + length rs)) (APm (map snd sts1))) = APm peers1).
  { unfold peers1, sent1, suppress. destruct who; cbn [andb negb]; [|reflexivity]. f_equal. symmetry. unfold numbered. generalize (map snd sts1) as l, 0. induction l as [|x l IH]; intros s; [reflexivity|]. cbn [length seq combine map]. rewrite IH. reflexivity. }
  rewrite R0, R1. rewrite tam_pure, HP0. replace (a + length rs - a) with (length rs) by lia. rewrite Nat.eqb_refl. cbn [assert_ bind]. rewrite tam_pure, HP1, Nat.eqb_refl. cbn [assert_ bind tampered].
  rewrite (proj2 (call2_ret E _ _ _ _ (set_coll (set_coll s0 c0) (set_pm c0 m0)) (set_coll (set_coll s1 c1) (set_pm c1 m1)) (APmResult g0 n0) (APmResult g1 n1))).
  2:{ split; apply Hd1; cbn [body prelock set_coll s_poison s_coll s_id]; try assumption; try (apply debug_assert_true, Nat.ltb_lt; exact Hlt); unfold pm_result;
      rewrite ?Hlen0, ?Hlen1, ?L0, ?L1, ?Hh, ?I0, ?I1; cbn [negb]; replace (a + length rs - a) with (length rs) by lia; rewrite ?Hm0, ?Hm1; cbn [bind];
      rewrite ?Hg0a, ?Hg1a; cbn [unwrap bind]; do 4 f_equal; unfold n0, n1; rewrite Z.mod_small; destruct who; lia. }
  cbn [bind]. set (h := fun j => fneg (fsum (map (fun i => nth j (out i) (of_Z 0)) (hits a (length rs))))).
  unfold suppress. replace (a + length rs - a) with (length rs) by lia. fold h. fold n.
  set (lie := fun v : list fld => if full then raised h v else v).
  transitivity (run (dop PDone (assert_ ((if who then (if full then n0 + Z.of_nat n else n0) else n0) =? (if who then n1 else if full then n1 + Z.of_nat n else n1))%Z);
     dop PDone (count_ok E (length rs) (if who then (if full then n0 + Z.of_nat n else n0) else n0)%Z);
     letp res := PDone (unwrap (p3_unshard (cfg_hist cfg) (if who then lie g0 else g0) (if who then g1 else lie g1))) in PDone (Ret (res, (if who then (if full then n0 + Z.of_nat n else n0) else n0)%Z)))
     (set_coll (set_coll s0 c0) (set_pm c0 m0)) (set_coll (set_coll s1 c1) (set_pm c1 m1))); [unfold lie; destruct who, full; reflexivity|].
  rewrite tam_pure. destruct (full || (n =? 0)) eqn:Hf.
  - assert (E0 : (if who then (if full then n0 + Z.of_nat n else n0) else n0)%Z = Z.of_nat rej).
    { unfold n0. destruct full; cbn [orb] in Hf; [destruct who; lia|]. apply Nat.eqb_eq in Hf. destruct who; lia. }
    assert (E1 : (if who then n1 else if full then n1 + Z.of_nat n else n1)%Z = Z.of_nat rej).
    { unfold n1. destruct full; cbn [orb] in Hf; [destruct who; lia|]. apply Nat.eqb_eq in Hf. destruct who; lia. }
    rewrite E0, E1, Z.eqb_refl. cbn [assert_ bind]. rewrite tam_pure, count_fine by lia. cbn [bind]. rewrite tam_pure, Hcl.
    assert (HU : p3_unshard len (if who then lie g0 else g0) (if who then g1 else lie g1) = Some (fst (sum_histogram len rs))).
    { assert (HL : forall v, length v = len -> length (lie v) = len) by (intros v Hv; unfold lie; destruct full; [rewrite raised_length|]; exact Hv).
      destruct (p3_aggregate_spec len [if who then lie g0 else g0; if who then g1 else lie g1]) as (g & Hga & Hgl & Hgn).
      { repeat constructor; destruct who; auto. }
      unfold p3_unshard. rewrite Hga. f_equal. unfold sum_histogram. cbn [fst]. apply nth_seq_map with (d := 0%Z); [|rewrite map_length; exact Hgl].
      intros j Hj. rewrite (nth_indep _ 0%Z (fval (of_Z 0))) by (rewrite map_length; lia). rewrite map_nth. f_equal. rewrite Hgn by exact Hj. cbn [map fsum].
      assert (Hlie : forall v, length v = len -> nth j (lie v) (of_Z 0) = fadd (nth j v (of_Z 0)) (h j)).
      { intros v Hv. unfold lie. destruct full.
        - apply raised_nth. lia.
        - cbn [orb] in Hf. apply Nat.eqb_eq in Hf. unfold n in Hf. apply length_zero_iff_nil in Hf. unfold h. rewrite Hf. cbn. change (of_Z 0) with fzero. ring. }
      specialize (Hsum j Hj). rewrite <- Hg0n, <- Hg1n in Hsum by exact Hj.
      assert (Hh' : fadd (fadd (nth j g0 (of_Z 0)) (nth j g1 (of_Z 0))) (h j) = fsum (map (fun o => nth j o (of_Z 0)) (somes rs))) by (rewrite Hsum; unfold h; ring).
      rewrite <- Hh'. destruct who; rewrite Hlie by assumption; change (of_Z 0) with fzero; ring. }
    rewrite HU. cbn [unwrap bind tampered]. reflexivity.
  - apply orb_false_iff in Hf. destruct Hf as [-> Hn0]. apply Nat.eqb_neq in Hn0.
    assert (Hneq : ((if who then n0 else n0) =? (if who then n1 else n1))%Z = false) by (apply Z.eqb_neq; unfold n0, n1; destruct who; lia). rewrite Hneq. reflexivity.
Qed.

Lemma spot_part s0 s1 l1 l2 l3 : spot_pair s0 s1 0 (l1 ++ l2 ++ l3) -> spot_pair s0 s1 (length l1) l2.
Proof.
  intros (H1 & H2 & H3 & H4 & H5 & H6 & H7 & H8 & J). repeat (split; [assumption|]). intros k res Hk. apply (J (length l1 + k)).
  rewrite nth_error_app2 by lia. replace (length l1 + k - length l1) with k by lia. rewrite nth_error_app1; [exact Hk|]. apply nth_error_Some. congruence.
Qed.
Lemma spot_frame s0 s1 t0 t1 rs : spot_pair s0 s1 0 rs -> frame s0 t0 -> frame s1 t1 -> spot_pair t0 t1 0 rs.
Proof.
  intros (H1 & H2 & H3 & H4 & H5 & H6 & H7 & H8 & J) (a0 & b0 & c0 & d0 & e0) (a1 & b1 & c1 & d1 & e1). unfold spot_pair. rewrite a0, a1, b0, b1, c0, c1, d0, d1, e0, e1.
  repeat (split; [assumption|]). exact J.
Qed.
Lemma hits_app a n m : length (hits a (n + m)) = length (hits a n) + length (hits (a + n) m).
Proof. rewrite seq_app, filter_app, app_length. reflexivity. Qed.
Lemma suppress_batches cfg all : cfg_hist cfg = len -> hist_ok len = true -> 0 < cfg_query_batch cfg -> (Z.of_nat (length all) < 2 ^ 64)%Z ->
  forall fuel l1 rest s0 s1, all = l1 ++ rest -> length rest <= fuel -> spot_pair s0 s1 0 all ->
  exists t0 t1, run (pm_batches_p E cfg (length all) (Driver.steps fuel (length l1) (length all) (cfg_query_batch cfg))) s0 s1 =
    (if full || (length (hits (length l1) (length rest)) =? 0) then Ret (t0, t1, map (sum_histogram len) (pieces (cfg_query_batch cfg) rest)) else Panic PAssert).
Proof.
  intros Hcl Hh Hb Hbig. set (b := cfg_query_batch cfg) in *.
  induction fuel as [|fuel IH]; intros l1 rest s0 s1 Hall Hf Hp; cbn [Driver.steps].
  - destruct rest; [|cbn in Hf; lia]. rewrite pieces_nil by exact Hb. cbn. rewrite orb_true_r. eauto.
  - assert (Hll : length all = length l1 + length rest) by (rewrite Hall; apply app_length).
    destruct (length l1 <? length all) eqn:Hlt.
    2:{ apply Nat.ltb_ge in Hlt. destruct rest; [|cbn in Hll; lia]. rewrite pieces_nil by exact Hb. cbn. rewrite orb_true_r. eauto. }
    apply Nat.ltb_lt in Hlt. cbn [pm_batches_p]. cbv zeta. fold b.
    assert (Hr : rest = firstn b rest ++ skipn b rest) by (symmetry; apply firstn_skipn).
    assert (Hlw : length (firstn b rest) = Nat.min b (length rest)) by apply firstn_length.
    assert (Hls : length rest = length (firstn b rest) + length (skipn b rest)) by (rewrite Hr at 1; apply app_length).
    assert (Hne : firstn b rest <> []) by (intros Hc; rewrite Hc in Hlw; cbn in Hlw; lia).
    replace (Nat.min (length all) (length l1 + b)) with (length l1 + length (firstn b rest)) by lia.
    assert (Hp1 : spot_pair s0 s1 (length l1) (firstn b rest)).
    { apply spot_part with (l3 := skipn b rest). rewrite <- Hr, <- Hall. exact Hp. }
    destruct (suppress_batch cfg s0 s1 (length l1) (firstn b rest) Hcl Hh Hne ltac:(lia) Hp1) as (t0 & t1 & Hrun & F0 & F1).
    rewrite tam_bind, Hrun. rewrite (f_equal (fun x => length (hits (length l1) x)) Hls), hits_app.
    destruct (IH (l1 ++ firstn b rest) (skipn b rest) t0 t1) as (u0 & u1 & Hu).
    { rewrite <- app_assoc, <- Hr. exact Hall. } { lia. } { eapply spot_frame; eauto. }
    assert (Hst : Driver.steps fuel (length (l1 ++ firstn b rest)) (length all) b = Driver.steps fuel (length l1 + b) (length all) b).
    { rewrite app_length. destruct (Nat.le_gt_cases b (length rest)) as [Hle|Hgt]; [rewrite Hlw; f_equal; lia|].
      rewrite !(steps_spec cfg _ eq_refl) by lia. replace (length all - (length l1 + length (firstn b rest))) with 0 by lia. replace (length all - (length l1 + b)) with 0 by lia. rewrite Nat.div_small by lia. reflexivity. }
    rewrite Hst in Hu. rewrite app_length in Hu. exists u0, u1. rewrite (pieces_cons b rest); [|exact Hb|intros Hc; rewrite Hc in Hll; cbn in Hll; lia]. cbn [map].
    set (x := length (hits (length l1) (length (firstn b rest)))) in *. set (y := length (hits (length l1 + length (firstn b rest)) (length (skipn b rest)))) in *.
    destruct (full || (x =? 0)) eqn:H1.
    + cbn [bind]. rewrite tam_bind, Hu.
      replace (full || (x + y =? 0)) with (full || (y =? 0)) by (destruct full; [reflexivity|]; cbn [orb] in *; apply Nat.eqb_eq in H1; rewrite H1; reflexivity).
      destruct (full || (y =? 0)); reflexivity.
    + apply orb_false_iff in H1. destruct H1 as [-> H1]. apply Nat.eqb_neq in H1. cbn [orb bind]. rewrite (proj2 (Nat.eqb_neq (x + y) 0)) by lia. reflexivity.
Qed.

Lemma suppress_main shard clients chs fuel cfg s0 s1 : (forall cl, In cl clients -> shard len (pc_bucket cl) (pc_nonce cl) (pc_rand cl) <> None) ->
  Forall (good_pm_choice E shard len vk clients) chs -> (forall i ch, nth_error chs i = Some ch -> D i = true -> suppressible_choice E shard len vk clients who sp (out i) ch) ->
  cfg_hist cfg = len -> hist_ok len = true -> clients <> [] -> 0 < cfg_query_batch cfg -> 0 < cfg_add_batch cfg ->
  length chs <= fuel -> (Z.of_nat (length chs) < 2 ^ 64)%Z ->
  s_poison s0 = false -> s_id s0 = 0%Z -> s_poison s1 = false -> s_id s1 = 1%Z ->
  exists t0 t1, run (main_pm_p fuel E shard cfg clients vk chs) s0 s1 =
    (if full || (length (hits 0 (length chs)) =? 0) then Ret (t0, t1, map (vote_histogram len) (pieces (cfg_query_batch cfg) (votes_without D clients chs))) else Panic PAssert).
Proof.
  intros Hsh Hch Hsup Hh Hist Hsome Hq Ha Hf Hbig P0 I0 P1 I1. destruct (prio_reports shard len clients Hsh) as (reports & Hrep & Hnth).
  assert (Hups : exists ups, mapM (make_upload reports) chs = Ret ups /\ Forall2 (fun ch u => exists cl pub i0 i1, nth_error clients (ch_idx ch) = Some cl /\ shard len (pc_bucket cl) (pc_nonce cl) (pc_rand cl) = Some (pub, (i0, i1)) /\
    u = (RSPrio3 (pc_nonce cl) pub i0, RSPrio3 (pc_nonce cl) pub (if ch_malicious ch then spoil i1 else i1)) /\ p3_run E len vk (fst u) (snd u) (if ch_malicious ch then None else Some (one_hot len (pc_bucket cl)))) chs ups).
  { clear -Hch Hnth. induction Hch as [|ch chs (cl & pub & i0 & i1 & Hc & _ & Hs & Hne & Hr) Hch (ups & IH1 & IH2)]; [exists []; split; [reflexivity|constructor]|].
    eexists (_ :: ups). cbn [mapM]. rewrite (prio_upload _ _ _ _ _ _ (Hnth _ _ _ _ _ Hc Hs) Hne). cbn [bind]. rewrite IH1. split; [reflexivity|]. constructor; [|exact IH2]. exists cl, pub, i0, i1. auto. }
  destruct Hups as (ups & Hups & Hruns).
  assert (Hreset : forall s, s_poison s = false -> handle E s (QReset vk len) = (set_coll s (coll_new len (s_id s) (s_bits s) vk), Ret ADone)).
  { intros s Hp. apply handle_ret. split; [reflexivity|]. split; [exact Hp|]. eexists. split; [|reflexivity]. cbn [body]. rewrite Hist. reflexivity. }
  set (u0 := set_coll s0 (coll_new len (s_id s0) (s_bits s0) vk)). set (u1 := set_coll s1 (coll_new len (s_id s1) (s_bits s1) vk)).
  assert (Hvl : length (map (vote_vec len) (votes_without D clients chs)) = length chs) by (unfold votes_without, numbered, pm_votes; rewrite !map_length, combine_length, seq_length, map_length; lia).
  destruct (suppress_batches cfg (map (vote_vec len) (votes_without D clients chs)) Hh Hist Hq ltac:(rewrite Hvl; exact Hbig) (length chs) [] _ (with_reports u0 (map fst ups)) (with_reports u1 (map snd ups)) eq_refl ltac:(rewrite Hvl; lia)) as (t0 & t1 & Hrun).
  { unfold spot_pair. cbn [with_reports set_coll s_poison s_id s_coll c_len c_vk coll_new c_reports]. split; [exact P0|]. split; [exact P1|]. split; [exact I0|]. split; [exact I1|]. do 4 (split; [reflexivity|]).
    intros k res Hk. unfold votes_without, pm_votes in Hk. rewrite !nth_error_map', numbered_nth, !nth_error_map' in Hk. destruct (nth_error chs k) as [ch|] eqn:Hc; [|discriminate]. cbn [option_map fst snd] in Hk. injection Hk as <-.
    apply Forall2_nth in Hruns. destruct Hruns as [Hl Hruns]. destruct (nth_error ups k) as [u|] eqn:Hu; [|apply nth_error_None in Hu; assert (k < length chs) by (apply nth_error_Some; congruence); lia].
    destruct (Hruns _ _ _ Hc Hu) as (cl & pub & i0 & i1 & Hcl & Hs & -> & Hr). cbn [fst snd] in Hr. do 2 eexists. do 2 eexists. split; [|split].
    1, 2: unfold u0, u1; cbn; rewrite !nth_error_map', Hu; reflexivity.
    cbn [fst snd Nat.add]. unfold spot. destruct (D k) eqn:HD.
    - split; [reflexivity|]. destruct (Hsup k ch Hc HD) as (Hm & cl' & pub' & i0' & i1' & Hcl' & Hs' & Hsu). rewrite Hm. rewrite Hcl in Hcl'. injection Hcl' as <-. rewrite Hs in Hs'. injection Hs' as <- <- <-. exact Hsu.
    - rewrite Hcl. destruct (ch_malicious ch); exact Hr. }
  rewrite Hvl in Hrun. cbn [length] in Hrun. exists t0, t1.
  unfold main_pm_p. rewrite Hh, Hist. cbn [negb]. destruct (length clients =? 0) eqn:Hz; [apply Nat.eqb_eq, length_zero_iff_nil in Hz; contradiction|]. cbn [tampered].
  rewrite (alone_map E _ _ _ (gen_prio_report shard len)) by reflexivity. rewrite Hrep. cbn [bind].
  rewrite tam_bind, (quiet_same E who (suppress full sp D out)) by (apply quiet_reset; reflexivity). rewrite interp_reset.
  unfold reset_servers. rewrite Hh. rewrite (proj2 (call2_done_ret _ _ _ _ _ _ _)) by (do 2 eexists; split; apply Hreset; assumption). cbn [bind unit_of]. fold u0 u1.
  rewrite tam_bind, (quiet_same E who (suppress full sp D out)) by (apply quiet_upload; reflexivity). rewrite interp_upload, (upload_spec fuel E cfg reports chs ups u0 u1 Ha Hf P0 P1 Hups). cbn [bind unit_of].
  rewrite tam_pure. unfold step_by. rewrite (proj2 (Nat.eqb_neq _ _)) by lia. cbn [bind]. rewrite Hrun.
  destruct (full || _); [|reflexivity]. do 2 f_equal. rewrite pieces_map, map_map. apply map_ext_in. intros l Hl.
  apply vote_sum_histogram. unfold pieces in Hl. apply in_map_iff in Hl. destruct Hl as (k & <- & _). rewrite map_length in Hvl. rewrite firstn_length, skipn_length, Hvl. lia.
Qed.
End Suppress.

Lemma votes_suppressed E shard len vk clients chs who sp D out fuel cfg s0 s1 : (forall cl, In cl clients -> shard len (pc_bucket cl) (pc_nonce cl) (pc_rand cl) <> None) ->
  Forall (good_pm_choice E shard len vk clients) chs -> (forall i ch, nth_error chs i = Some ch -> D i = true -> suppressible_choice E shard len vk clients who sp (out i) ch) ->
  cfg_hist cfg = len -> hist_ok len = true -> clients <> [] -> 0 < cfg_query_batch cfg -> 0 < cfg_add_batch cfg ->
  length chs <= fuel -> (Z.of_nat (length chs) < 2 ^ 64)%Z ->
  s_poison s0 = false -> s_id s0 = 0%Z -> s_poison s1 = false -> s_id s1 = 1%Z ->
  exists t0 t1, tampered E who (suppress true sp D out) (main_pm_p fuel E shard cfg clients vk chs) s0 s1 =
    Ret (t0, t1, map (vote_histogram len) (pieces (cfg_query_batch cfg) (votes_without D clients chs))).
Proof. intros. destruct (suppress_main E len vk who true sp D out shard clients chs fuel cfg s0 s1) as (t0 & t1 & H'); try assumption. exists t0, t1. exact H'. Qed.
Lemma shares_alone E shard len vk clients chs who sp D out fuel cfg s0 s1 i : (forall cl, In cl clients -> shard len (pc_bucket cl) (pc_nonce cl) (pc_rand cl) <> None) ->
  Forall (good_pm_choice E shard len vk clients) chs -> (forall i ch, nth_error chs i = Some ch -> D i = true -> suppressible_choice E shard len vk clients who sp (out i) ch) ->
  cfg_hist cfg = len -> hist_ok len = true -> clients <> [] -> 0 < cfg_query_batch cfg -> 0 < cfg_add_batch cfg ->
  length chs <= fuel -> (Z.of_nat (length chs) < 2 ^ 64)%Z ->
  s_poison s0 = false -> s_id s0 = 0%Z -> s_poison s1 = false -> s_id s1 = 1%Z ->
  i < length chs -> D i = true ->
  tampered E who (suppress false sp D out) (main_pm_p fuel E shard cfg clients vk chs) s0 s1 = Panic PAssert.
Proof.
  intros. destruct (suppress_main E len vk who false sp D out shard clients chs fuel cfg s0 s1) as (t0 & t1 & H'); try assumption. rewrite H'. cbn [orb].
  destruct (length (filter D (seq 0 (length chs))) =? 0) eqn:Hz; [|reflexivity]. exfalso. apply Nat.eqb_eq, length_zero_iff_nil in Hz.
  assert (Hin : In i (filter D (seq 0 (length chs)))) by (apply filter_In; split; [apply in_seq; lia|assumption]). rewrite Hz in Hin. destruct Hin.
Qed.
