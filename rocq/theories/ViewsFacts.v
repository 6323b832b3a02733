(** Proofs for C88. *)
From Verif Require Import Base BaseFacts Field Util UtilFacts Env Prg PrgFacts PrgSpecFacts2 Vidpf SpecVidpf SpecTree VidpfFacts
  Merkle Collect Server Driver Modes SpecCollect SpecServer SpecDriver SpecMetrics SpecCheck SpecLevel SpecWhh SpecModes
  CollectFacts CollectInv ServerFacts DriverFacts DriverPropFacts MetricsFacts PmFacts LevelFacts WhhFacts WhhMain
  Sched SchedFacts SchedRun System SystemFacts SpecView ViewFacts SpecViews ModesFacts ModesMain PmMain.
From Coq Require Import Lia Bool Permutation.

(** *** attribute-based metrics *)
Section Abm.
Variables (E : env) (cfg : config) (len : nat) (vk : bytes) (attrs : list (list bool)).
Hypothesis Hlen : cfg_hist cfg = len.
Notation Side := (ModesFacts.side E len vk).

Lemma abm_batch_asked R doneRows ws Rb s0 s1 :
  Side true (map fst R) w_vals0 doneRows s0 -> Side false (map snd R) w_vals1 doneRows s1 ->
  (forall k r, nth_error Rb k = Some r -> nth_error R (length doneRows + k) = Some r) -> Forall2 (row_of E len vk attrs) Rb ws -> ws <> [] ->
  asked E (abm_batch_p E cfg attrs (length doneRows) (length doneRows + length ws)) s0 s1 =
  map both [QAbmValidate attrs (length doneRows) (length doneRows + length ws);
            QAbmResult (flat_map marks (tagged (length doneRows) ws)) (length attrs) (length doneRows) (length doneRows + length ws)].
Proof.
  intros S0 S1 HR HF Hne. destruct (rows_made E cfg len vk attrs Hlen Rb ws HF) as (l0 & l1 & A0 & A1 & M & L0 & L1 & V0 & V1).
  assert (Hpos : 0 < length ws) by (destruct ws; [contradiction|cbn; lia]).
  assert (HR0 : forall k r, nth_error (map fst Rb) k = Some r -> nth_error (map fst R) (length doneRows + k) = Some r).
  { intros k r H. rewrite nth_error_map' in *. destruct (nth_error Rb k) as [x|] eqn:Hx; [|discriminate]. rewrite (HR _ _ Hx). exact H. }
  assert (HR1 : forall k r, nth_error (map snd Rb) k = Some r -> nth_error (map snd R) (length doneRows + k) = Some r).
  { intros k r H. rewrite nth_error_map' in *. destruct (nth_error Rb k) as [x|] eqn:Hx; [|discriminate]. rewrite (HR _ _ Hx). exact H. }
  pose proof (validate_batch E cfg len vk attrs Hlen true _ _ _ _ _ _ S0 HR0 A0) as Hv0. pose proof (validate_batch E cfg len vk attrs Hlen false _ _ _ _ _ _ S1 HR1 A1) as Hv1. rewrite L0 in Hv0. rewrite L1 in Hv1.
  pose proof S0 as (P0 & _). pose proof S1 as (P1 & _).
  assert (Hlt : (length doneRows <? length doneRows + length ws) = true) by (apply Nat.ltb_lt; lia).
  unfold abm_batch_p. cbn [asked map]. unfold both at 1. f_equal.
  assert (H0 : exists t0, handle E s0 (QAbmValidate attrs (length doneRows) (length doneRows + length ws)) = (t0, Ret (AAbm (map (fun x => (snd (fst x), snd x)) l0)))).
  { eexists. apply handle_ret. split; [cbn [prelock]; rewrite Hlt; apply debug_assert_true; reflexivity|]. split; [assumption|]. eexists. split; [|reflexivity]. cbn [body]. rewrite Hv0. reflexivity. }
  assert (H1 : exists t1, handle E s1 (QAbmValidate attrs (length doneRows) (length doneRows + length ws)) = (t1, Ret (AAbm (map (fun x => (snd (fst x), snd x)) l1)))).
  { eexists. apply handle_ret. split; [cbn [prelock]; rewrite Hlt; apply debug_assert_true; reflexivity|]. split; [assumption|]. eexists. split; [|reflexivity]. cbn [body]. rewrite Hv1. reflexivity. }
  destruct H0 as [t0 ->]. destruct H1 as [t1 ->]. rewrite !map_length, L0, L1. replace (length doneRows + length ws - length doneRows) with (length ws) by lia. rewrite Nat.eqb_refl.
  rewrite asked_pure. cbn [assert_]. rewrite asked_pure. rewrite asked_pure. rewrite Hlen, (rejected_rows E cfg len Hlen l0 l1 ws) by (try exact M; lia).
  cbn [asked]. unfold both. f_equal. destruct (handle E t0 _) as [u0 [x0|e0]]; [|reflexivity]. destruct (handle E t1 _) as [u1 [x1|e1]]; [|reflexivity]. destruct x0; try reflexivity. destruct x1; reflexivity.
Qed.

Definition row_requests (rows : list row) (r : nat * nat) : list request :=
  [QAbmValidate attrs (fst r) (snd r); QAbmResult (flat_map marks (tagged (fst r) (firstn (snd r - fst r) (skipn (fst r) rows)))) (length attrs) (fst r) (snd r)].
Lemma abm_batches_asked R rows : Forall2 (row_of E len vk attrs) R rows -> 0 < cfg_query_batch cfg -> existsb twice rows = false ->
  forall fuel doneRows rest s0 s1, rows = doneRows ++ rest -> length rest <= fuel ->
  Side true (map fst R) w_vals0 doneRows s0 -> Side false (map snd R) w_vals1 doneRows s1 ->
  asked E (abm_batches_p E cfg attrs (length rows) (Driver.steps fuel (length doneRows) (length rows) (cfg_query_batch cfg))) s0 s1 =
  map both (flat_map (row_requests rows) (from_bounds (length rows) (cfg_query_batch cfg) (length doneRows))).
Proof.
  intros HF Hb Htw. set (b := cfg_query_batch cfg) in *.
  induction fuel as [|fuel IH]; intros doneRows rest s0 s1 Hrows Hf S0 S1; assert (Hll : length rows = length doneRows + length rest) by (rewrite Hrows; apply app_length); cbn [Driver.steps].
  - destruct rest; [|cbn in Hf; lia]. rewrite from_end by (cbn in Hll; lia). reflexivity.
  - destruct (length doneRows <? length rows) eqn:Hlt.
    2:{ apply Nat.ltb_ge in Hlt. rewrite from_end by lia. reflexivity. }
    apply Nat.ltb_lt in Hlt. cbn [abm_batches_p].
    set (ws := firstn b rest). set (rest' := skipn b rest).
    assert (Hr : rest = ws ++ rest') by (symmetry; apply firstn_skipn).
    assert (Hlw : length ws = Nat.min b (length rest)) by apply firstn_length.
    assert (Hstop : Nat.min (length rows) (length doneRows + b) = length doneRows + length ws) by lia.
    fold b. rewrite from_step by assumption. rewrite Hstop. cbv zeta.
    assert (HRb : Forall2 (row_of E len vk attrs) (firstn (length ws) (skipn (length doneRows) R)) ws).
    { rewrite Hrows, Hr in HF. clear -HF. apply Forall2_app_inv_r in HF. destruct HF as (R1 & R2 & H1 & H2 & ->). apply Forall2_app_inv_r in H2. destruct H2 as (R3 & R4 & H3 & H4 & ->).
      assert (L1 : length R1 = length doneRows) by (induction H1; cbn; congruence). assert (L3 : length R3 = length ws) by (clear -H3; induction H3; cbn; congruence).
      rewrite <- L1, <- L3. rewrite skipn_app, skipn_all, Nat.sub_diag. cbn [skipn app]. rewrite firstn_app, firstn_all, Nat.sub_diag, firstn_O, app_nil_r. exact H3. }
    assert (HRn : forall k r, nth_error (firstn (length ws) (skipn (length doneRows) R)) k = Some r -> nth_error R (length doneRows + k) = Some r).
    { intros k r Hk. assert (Hkl : k < length ws). { assert (k < length (firstn (length ws) (skipn (length doneRows) R))) by (apply nth_error_Some; congruence). rewrite firstn_length in *. lia. }
      rewrite <- nth_error_skipn. rewrite <- (firstn_skipn (length ws) (skipn (length doneRows) R)), nth_error_app1; [exact Hk|apply nth_error_Some; congruence]. }
    assert (Hwne : ws <> []) by (intros Hc; rewrite Hc in Hlw; cbn in Hlw; lia).
    destruct (abm_batch_run E cfg len vk attrs Hlen R doneRows ws (firstn (length ws) (skipn (length doneRows) R)) s0 s1 S0 S1 HRn HRb Hwne) as (t0 & t1 & Hbatch & T0 & T1).
    assert (Hws : existsb twice ws = false).
    { rewrite Hrows, Hr, !existsb_app in Htw. apply orb_false_iff in Htw. destruct Htw as [_ Htw]. apply orb_false_iff in Htw. apply Htw. }
    rewrite Hws, andb_false_r in Hbatch.
    rewrite asked_bind, (abm_batch_asked R doneRows ws (firstn (length ws) (skipn (length doneRows) R)) s0 s1 S0 S1 HRn HRb Hwne), interp_abm_batch, Hbatch.
    cbn [flat_map]. rewrite map_app. f_equal.
    { unfold row_requests. cbn [fst snd]. replace (firstn (length doneRows + length ws - length doneRows) (skipn (length doneRows) rows)) with ws; [reflexivity|].
      rewrite Hrows, skipn_app, skipn_all, Nat.sub_diag. cbn [skipn app]. replace (length doneRows + length ws - length doneRows) with (length ws) by lia. rewrite Hr, firstn_app, firstn_all, Nat.sub_diag, firstn_O, app_nil_r. reflexivity. }
    rewrite asked_bind. assert (Hnil : forall (o : outcome (server * server * list (list (list bool * list fld)))) tb, match o with Ret (x0, x1, ts) => asked E (PDone (Ret (tb :: ts))) x0 x1 | Panic _ => [] end = ([] : list (request * request))) by (intros [[[? ?] ?]|?] ?; reflexivity).
    rewrite Hnil, app_nil_r.
    assert (Hst : Driver.steps fuel (length doneRows + b) (length rows) b = Driver.steps fuel (length (doneRows ++ ws)) (length rows) b).
    { rewrite app_length. destruct (Nat.le_gt_cases b (length rest)) as [Hle|Hgt]; [rewrite Hlw; f_equal; lia|].
      rewrite !(steps_spec cfg _ eq_refl) by lia. replace (length rows - (length doneRows + length ws)) with 0 by lia. replace (length rows - (length doneRows + b)) with 0 by lia. rewrite Nat.div_small by lia. reflexivity. }
    rewrite Hst. rewrite (IH (doneRows ++ ws) rest' t0 t1); [|rewrite <- app_assoc, <- Hr; exact Hrows|unfold rest'; rewrite skipn_length; lia|exact T0|exact T1].
    do 2 f_equal. rewrite app_length. destruct (Nat.le_gt_cases b (length rest)) as [Hle|Hgt]; [f_equal; lia|]. rewrite !from_end by lia. reflexivity.
Qed.
End Abm.

Lemma flat_map_ext' {A B} (f g : A -> list B) l : (forall x, In x l -> f x = g x) -> flat_map f l = flat_map g l.
Proof. induction l as [|x l IH]; intros H; cbn [flat_map]; [reflexivity|]. rewrite (H x (or_introl eq_refl)), IH; [reflexivity|]. intros y Hy. apply H. right. exact Hy. Qed.
(** a report whose trees agree is rejected once, and only for its FLP verdict *)
Lemma marks_filter oks : forall ws a, (forall k w, nth_error ws k = Some w -> w_agree w = true /\ w_fit w = nth (a + k) oks true) ->
  flat_map marks (tagged a ws) = filter (fun i => negb (nth i oks true)) (seq a (length ws)).
Proof.
  induction ws as [|w ws IH]; intros a H; [reflexivity|]. rewrite tagged_cons. cbn [flat_map length seq filter]. destruct (H 0 w eq_refl) as [Hs Hw]. rewrite Nat.add_0_r in Hw.
  unfold marks at 1. cbn [fst snd]. rewrite Hs, Hw, app_nil_r, (IH (S a)).
  - destruct (nth a oks true); reflexivity.
  - intros k w' Hk. replace (S a + k) with (a + S k) by lia. apply H. exact Hk.
Qed.

Lemma abm_view E len bits vk clients reports chs samples order fuel cfg s0 s1 :
  env_ok E -> 1 <= bits -> mapM (gen_report E len) clients = Ret reports ->
  Forall (good_client E len bits vk) clients -> Forall (good_choice E len vk reports) chs -> fixed_verifier_len E len ->
  cfg_hist cfg = len -> 0 < cfg_query_batch cfg -> 0 < cfg_add_batch cfg -> hist_ok len = true -> clients <> [] -> length chs <= fuel ->
  running 0 bits s0 -> (exists id, id <> 0%Z /\ running id bits s1) ->
  (forall s, In s samples -> 1 <= s < length clients) -> (forall l, Permutation (order l) l) ->
  exists attrs ups parts, sample_attributes reports samples = Ret attrs /\ mapM (make_upload reports) chs = Ret ups /\ concat parts = ups /\
    asked E (main_abm_p fuel E cfg clients vk chs samples order) s0 s1 =
    both (QReset vk len) :: map (fun part => (QAddReportShares (map fst part), QAddReportShares (map snd part))) parts ++
    map both (abm_script (cfg_query_batch cfg) (order attrs) (map counts chs)).
Proof.
  intros Hok Hb Hrep Hcl Hch Hver Hh Hq Ha Hist Hne Hf (P0 & I0 & B0) (id & Hid & P1 & I1 & B1) Hs Hord.
  pose proof (reports_alphas E len clients reports Hok Hrep) as Hal. pose proof (Forall2_len _ _ _ Hal) as Hll.
  destruct (sample_ok reports samples) as (attrs & Hat & Hnd & Hin).
  { intros r Hr. clear -Hal Hr. induction Hal as [|cl r' l l' H1 H2 IH]; [destruct Hr|]. destruct Hr as [->|Hr]; [eauto|auto]. }
  { intros s Hss. rewrite <- Hll. apply Hs. exact Hss. }
  assert (Hattrs : forall a, In a (order attrs) -> 1 <= length a <= bits).
  { intros a Hia. apply (Permutation_in _ (Hord attrs)), Hin in Hia. destruct Hia as (i & r & _ & Hr & Hu). apply Forall2_nth in Hal. destruct Hal as [_ Hal].
    destruct (nth_error clients i) as [cl|] eqn:Hc; [|apply nth_error_None in Hc; assert (i < length reports) by (apply nth_error_Some; congruence); lia].
    rewrite (Hal _ _ _ Hc Hr) in Hu. injection Hu as <-. rewrite Forall_forall in Hcl. destruct (Hcl cl (nth_error_In _ _ Hc)) as (_ & _ & Hlen & _). lia. }
  assert (Hreset : forall s, s_poison s = false -> handle E s (QReset vk len) = (set_coll s (coll_new len (s_id s) (s_bits s) vk), Ret ADone)).
  { intros s Hp. apply handle_ret. split; [reflexivity|]. split; [exact Hp|]. eexists. split; [|reflexivity]. cbn [body]. rewrite Hist. reflexivity. }
  set (u0 := set_coll s0 (coll_new len (s_id s0) (s_bits s0) vk)). set (u1 := set_coll s1 (coll_new len (s_id s1) (s_bits s1) vk)).
  pose proof (uploads_ret E Hok len bits vk clients reports chs Hb Hrep Hcl Hch) as Hu.
  destruct (upload_asked fuel E cfg reports chs _ u0 u1 Ha Hf P0 P1 Hu) as (parts & Hp & Hua).
  exists attrs, (map (fun ch => (share0 reports ch, share1 reports ch)) chs), parts. split; [exact Hat|]. split; [exact Hu|]. split; [exact Hp|].
  unfold main_abm_p. rewrite Hh, Hist. cbn [negb]. destruct (length clients =? 0) eqn:Hz; [apply Nat.eqb_eq, length_zero_iff_nil in Hz; contradiction|]. cbn [asked]. rewrite (alone_reports E), Hrep.
  rewrite (asked_unit _ _ _ _ _ _ _ (interp_reset _ _ _ _ _)). unfold reset_p. rewrite asked_one, Hh. cbn [app]. unfold both at 1. f_equal.
  unfold reset_servers. rewrite Hh. rewrite (proj2 (call2_done_ret _ _ _ _ _ u0 u1)) by (do 2 eexists; split; apply Hreset; assumption).
  rewrite (asked_unit _ _ _ _ _ _ _ (interp_upload _ _ _ _ _ _ _)), Hua. f_equal.
  rewrite (upload_spec fuel E cfg reports chs _ u0 u1 Ha Hf P0 P1 Hu), !map_map. cbn [fst snd]. rewrite asked_pure, Hat. rewrite asked_pure. unfold step_by. rewrite (proj2 (Nat.eqb_neq _ _)) by lia.
  destruct (rows_exist E Hok len bits vk clients reports chs Hb Hrep Hcl Hch Hver (order attrs) Hattrs) as [rows Hrows].
  assert (Hl : length rows = length chs) by (clear -Hrows; induction Hrows; cbn; congruence).
  assert (Ht : existsb twice rows = false).
  { clear -Hrows. induction Hrows as [|ch w l ws (_ & _ & Hsm & _) HF IH]; cbn [existsb]; [reflexivity|]. unfold twice at 1. rewrite Hsm, andb_false_r. exact IH. }
  rewrite <- Hl.
  rewrite (abm_batches_asked E cfg len vk (order attrs) Hh (map (fun ch => (share0 reports ch, share1 reports ch)) chs) rows) with (fuel := length rows) (doneRows := []) (rest := rows); try assumption; try reflexivity.
  - cbn [length]. rewrite from_zero. unfold abm_script. rewrite map_length, <- Hl. f_equal. apply flat_map_ext'. intros [a b] Hab. unfold row_requests. cbn [fst snd].
    unfold bounds in Hab. apply in_map_iff in Hab. destruct Hab as (k & Hab & _). injection Hab as <- <-. do 3 f_equal.
    set (a := k * cfg_query_batch cfg). set (n := length rows).
    rewrite (marks_filter (map counts chs)).
    + f_equal. rewrite firstn_length, skipn_length. fold n. f_equal. lia.
    + intros j w Hj. assert (Hj2 : nth_error rows (a + j) = Some w).
      { rewrite <- nth_error_skipn. rewrite <- (firstn_skipn (Nat.min n (a + cfg_query_batch cfg) - a) (skipn a rows)), nth_error_app1; [exact Hj|apply nth_error_Some; congruence]. }
      apply Forall2_nth in Hrows. destruct Hrows as [_ Hrows]. destruct (nth_error chs (a + j)) as [ch|] eqn:Hc; [|apply nth_error_None in Hc; assert (a + j < length rows) by (apply nth_error_Some; congruence); lia].
      destruct (Hrows _ _ _ Hc Hj2) as (_ & Hw & Hsm & _). split; [exact Hsm|]. rewrite Hw. symmetry. apply nth_error_nth. rewrite nth_error_map', Hc. reflexivity.
  - clear -Hrows. induction Hrows as [|ch w l ws [H _] HF IH]; cbn [map]; constructor; assumption.
  - unfold ModesFacts.side. cbn. rewrite I0, P0, !map_map. cbn. repeat (split; [reflexivity|]). reflexivity.
  - unfold ModesFacts.side. cbn. rewrite I1, P1, !map_map. cbn. split; [reflexivity|]. split; [apply Z.eqb_neq; exact Hid|]. repeat (split; [reflexivity|]). reflexivity.
Qed.

(** *** plain metrics *)
Lemma pm_validate_shares E c sid a b c' v : pm_validate E c sid a b = Ret (c', v) ->
  length v = b - a /\ forall k, k < b - a -> exists h r w, nth_error (c_reports c) (a + k) = Some (h, r) /\ prep_share E (c_len c) (c_vk c) (Z.to_nat sid) r = Some w /\ nth_error v k = Some w.
Proof.
  unfold pm_validate. intros H. destruct (b <? a); [discriminate|]. destruct (sid <? 0)%Z; [discriminate|]. destruct (negb _); [discriminate|]. bret H as rs Hrs. injection H as _ <-.
  apply mapM_inv, Forall2_nth in Hrs. destruct Hrs as [Hl Hrs]. rewrite seq_length in Hl. split; [rewrite map_length; lia|]. intros k Hk.
  destruct (nth_error rs k) as [x|] eqn:Hx; [|apply nth_error_None in Hx; lia]. specialize (Hrs k (a + k) x (nth_error_seq _ _ _ Hk) Hx). unfold pm_validate_one in Hrs.
  bret Hrs as hr Hhr. destruct hr as [h r]. cbn [snd] in Hrs. apply index_ret in Hhr. destruct r as [|nonce pub inp]; [discriminate|]. bret Hrs as sp Hsp. apply unwrap_ret in Hsp. injection Hrs as <-.
  exists h, (RSPrio3 nonce pub inp), (snd sp). split; [exact Hhr|]. split; [cbn [prep_share]; rewrite Hsp; reflexivity|]. rewrite nth_error_map', Hx. reflexivity.
Qed.

(** the preparation shares of an aggregator that holds these reports *)
Definition holds (E : env) (s : server) (a b : nat) (w : list bytes) : Prop :=
  forall k, a <= k < b -> exists h r x, nth_error (c_reports (s_coll s)) k = Some (h, r) /\ prep_share E (c_len (s_coll s)) (c_vk (s_coll s)) (Z.to_nat (s_id s)) r = Some x /\ nth_error w k = Some x.
Lemma holds_frame E s t a b w : frame s t -> holds E t a b w -> holds E s a b w.
Proof. intros (_ & F1 & F2 & F3 & F4) H k Hk. specialize (H k Hk). rewrite F1, F2, F3, F4 in H. exact H. Qed.
(** the shares of all reports, with nothing where there is no share *)
Definition share_list (E : env) (s : server) : list bytes :=
  map (fun hr => match prep_share E (c_len (s_coll s)) (c_vk (s_coll s)) (Z.to_nat (s_id s)) (snd hr) with Some w => w | None => [] end) (c_reports (s_coll s)).
Lemma share_list_frame E s t : frame s t -> share_list E t = share_list E s.
Proof. intros (_ & F1 & F2 & F3 & F4). unfold share_list. rewrite F1, F2, F3, F4. reflexivity. Qed.
Lemma shares_slice E s a b c' v : pm_validate E (s_coll s) (s_id s) a b = Ret (c', v) -> firstn (b - a) (skipn a (share_list E s)) = v /\ holds E s a b (share_list E s).
Proof.
  intros H. apply pm_validate_shares in H. destruct H as [Hl H].
  assert (Hn : forall k, k < b - a -> nth_error (share_list E s) (a + k) = nth_error v k).
  { intros k Hk. destruct (H k Hk) as (h & r & w & Hr & Hw & Hv). unfold share_list. rewrite nth_error_map', Hr. cbn [option_map snd]. rewrite Hw, Hv. reflexivity. }
  split.
  - apply nth_error_ext. intros k. destruct (Nat.lt_ge_cases k (b - a)) as [Hk|Hk].
    + rewrite <- (Hn k Hk), <- nth_error_skipn. rewrite <- (firstn_skipn (b - a) (skipn a (share_list E s))) at 2. symmetry. apply nth_error_app1.
      rewrite firstn_length, skipn_length. assert (Hlt : a + (b - a - 1) < length (share_list E s)). { apply nth_error_Some. rewrite Hn by lia. intros Hc. apply nth_error_None in Hc. lia. } lia.
    + rewrite (proj2 (nth_error_None v k)) by lia. apply nth_error_None. rewrite firstn_length. lia.
  - intros k Hk. destruct (H (k - a) ltac:(lia)) as (h & r & w & Hr & Hw & Hv). replace (a + (k - a)) with k in Hr by lia. exists h, r, w. split; [exact Hr|]. split; [exact Hw|].
    replace k with (a + (k - a)) by lia. rewrite Hn by lia. exact Hv.
Qed.

Definition pm_requests (w0 w1 : list bytes) (r : nat * nat) : list (request * request) :=
  [both (QPmValidate (fst r) (snd r)); (QPmResult (firstn (snd r - fst r) (skipn (fst r) w1)) (fst r) (snd r), QPmResult (firstn (snd r - fst r) (skipn (fst r) w0)) (fst r) (snd r))].
Lemma pm_batch_asked E cfg a b s0 s1 x : pm_batch E cfg s0 s1 a b = Ret x ->
  asked E (pm_batch_p E cfg a b) s0 s1 = pm_requests (share_list E s0) (share_list E s1) (a, b) /\ holds E s0 a b (share_list E s0) /\ holds E s1 a b (share_list E s1).
Proof.
  unfold pm_batch, pm_batch_p. cbv zeta. intros H. bret H as [[t0 t1] [r0 r1]] Hc. apply call2_ret in Hc. destruct Hc as [H0 H1]. destruct r0 as [| | | | | |v0|]; try discriminate. destruct r1 as [| | | | | |v1|]; try discriminate.
  cbn [asked]. rewrite H0, H1. bret H as y0 Hy0. bret H as y1 Hy1. apply handle_ret in H0, H1. destruct H0 as (_ & _ & c0 & B0 & ->). destruct H1 as (_ & _ & c1 & B1 & ->).
  cbn [body] in B0, B1. bret B0 as [d0 z0] V0. bret B1 as [d1 z1] V1. injection B0 as <- <-. injection B1 as <- <-.
  destruct (shares_slice _ _ _ _ _ _ V0) as [E0 K0]. destruct (shares_slice _ _ _ _ _ _ V1) as [E1 K1]. split; [|split; assumption].
  rewrite asked_pure, Hy0, asked_pure, Hy1. unfold pm_requests. cbn [fst snd]. unfold both at 1. rewrite E0, E1. f_equal. cbn [asked]. f_equal.
  destruct (handle E (set_coll s0 d0) _) as [w0 [x0|e0]]; [|reflexivity]. destruct (handle E (set_coll s1 d1) _) as [w1 [x1|e1]]; [|reflexivity]. destruct x0; try reflexivity. destruct x1; try reflexivity.
  do 3 (rewrite asked_pure; match goal with |- match ?o with Ret _ => _ | Panic _ => _ end = _ => destruct o; [|reflexivity] end). reflexivity.
Qed.
Lemma pm_batches_asked E cfg n : 0 < cfg_query_batch cfg -> forall fuel a s0 s1 x, n - a <= fuel -> pm_batches E cfg s0 s1 n (Driver.steps fuel a n (cfg_query_batch cfg)) = Ret x ->
  asked E (pm_batches_p E cfg n (Driver.steps fuel a n (cfg_query_batch cfg))) s0 s1 = flat_map (pm_requests (share_list E s0) (share_list E s1)) (from_bounds n (cfg_query_batch cfg) a) /\
  holds E s0 a n (share_list E s0) /\ holds E s1 a n (share_list E s1).
Proof.
  intros Hb. set (b := cfg_query_batch cfg) in *. induction fuel as [|fuel IH]; intros a s0 s1 x Hf H; cbn [Driver.steps] in *.
  - rewrite from_end by lia. split; [reflexivity|]. split; intros k Hk; lia.
  - destruct (a <? n) eqn:Hlt.
    2:{ apply Nat.ltb_ge in Hlt. rewrite from_end by lia. split; [reflexivity|]. split; intros k Hk; lia. }
    apply Nat.ltb_lt in Hlt. cbn [pm_batches pm_batches_p] in *. cbv zeta in *. fold b in H |- *. rewrite from_step by assumption. bret H as [[t0 t1] t] Hbt. bret H as y Hy.
    destruct (pm_batch_frame _ _ _ _ _ _ _ _ _ Hbt) as [F0 F1]. destruct (pm_batch_asked _ _ _ _ _ _ _ Hbt) as (A & K0 & K1).
    destruct (IH (a + b) t0 t1 y ltac:(lia) Hy) as (A' & K0' & K1'). rewrite (share_list_frame E _ _ F0), (share_list_frame E _ _ F1) in A'. rewrite (share_list_frame E _ _ F0) in K0'. rewrite (share_list_frame E _ _ F1) in K1'.
    split; [|split].
    + rewrite asked_bind, A, interp_pm_batch, Hbt. cbn [flat_map]. f_equal. rewrite asked_bind, A'.
      assert (Hnil : forall (o : outcome (server * server * list (list Z * Z))) tb, match o with Ret (x0, x1, ts) => asked E (PDone (Ret (tb :: ts))) x0 x1 | Panic _ => [] end = ([] : list (request * request))) by (intros [[[? ?] ?]|?] ?; reflexivity).
      rewrite Hnil, app_nil_r. reflexivity.
    + intros k Hk. destruct (Nat.lt_ge_cases k (Nat.min n (a + b))) as [Hkm|Hkm]; [apply K0; lia|apply (holds_frame E _ _ _ _ _ F0 K0'); lia].
    + intros k Hk. destruct (Nat.lt_ge_cases k (Nat.min n (a + b))) as [Hkm|Hkm]; [apply K1; lia|apply (holds_frame E _ _ _ _ _ F1 K1'); lia].
Qed.

Lemma pm_view E shard len vk clients reports chs ups fuel cfg s0 s1 x :
  mapM (gen_prio_report shard len) clients = Ret reports -> mapM (make_upload reports) chs = Ret ups ->
  cfg_hist cfg = len -> 0 < cfg_query_batch cfg -> 0 < cfg_add_batch cfg -> length chs <= fuel ->
  s_poison s0 = false -> s_id s0 = 0%Z -> s_poison s1 = false -> s_id s1 = 1%Z ->
  main_pm fuel E shard cfg clients vk chs s0 s1 = Ret x ->
  exists parts w0 w1, concat parts = ups /\
    Forall2 (fun u w => prep_share E len vk 0 (fst u) = Some w) ups w0 /\ Forall2 (fun u w => prep_share E len vk 1 (snd u) = Some w) ups w1 /\
    map fst (asked E (main_pm_p fuel E shard cfg clients vk chs) s0 s1) = QReset vk len :: map (fun part => QAddReportShares (map fst part)) parts ++ pm_script (cfg_query_batch cfg) w1 /\
    map snd (asked E (main_pm_p fuel E shard cfg clients vk chs) s0 s1) = QReset vk len :: map (fun part => QAddReportShares (map snd part)) parts ++ pm_script (cfg_query_batch cfg) w0.
Proof.
  intros Hrep Hu Hh Hq Ha Hf P0 I0 P1 I1 Hrun. unfold main_pm in Hrun. rewrite Hh in Hrun. destruct (hist_ok len) eqn:Hist; cbn [negb] in Hrun; [|discriminate]. destruct (length clients =? 0) eqn:Hz; [discriminate|].
  assert (Hreset : forall s, s_poison s = false -> handle E s (QReset vk len) = (set_coll s (coll_new len (s_id s) (s_bits s) vk), Ret ADone)).
  { intros s Hp. apply handle_ret. split; [reflexivity|]. split; [exact Hp|]. eexists. split; [|reflexivity]. cbn [body]. rewrite Hist. reflexivity. }
  set (u0 := set_coll s0 (coll_new len (s_id s0) (s_bits s0) vk)). set (u1 := set_coll s1 (coll_new len (s_id s1) (s_bits s1) vk)).
  destruct (upload_asked fuel E cfg reports chs ups u0 u1 Ha Hf P0 P1 Hu) as (parts & Hp & Hua).
  assert (Hres : reset_servers E cfg vk s0 s1 = Ret (u0, u1)).
  { unfold reset_servers. rewrite Hh. apply call2_done_ret. do 2 eexists; split; apply Hreset; assumption. }
  rewrite Hrep in Hrun. cbn [bind] in Hrun. rewrite Hres in Hrun. cbn [bind] in Hrun. rewrite (upload_spec fuel E cfg reports chs ups u0 u1 Ha Hf P0 P1 Hu) in Hrun. cbn [bind] in Hrun.
  unfold run_pm, step_by in Hrun. rewrite Hh, Hist, (proj2 (Nat.eqb_neq _ _)) in Hrun by lia. cbn [negb bind] in Hrun.
  destruct (pm_batches_asked E cfg (length chs) Hq (length chs) 0 _ _ _ ltac:(lia) Hrun) as (A & K0 & K1). rewrite from_zero in A.
  set (v0 := with_reports u0 (map fst ups)) in *. set (v1 := with_reports u1 (map snd ups)) in *.
  assert (Hul : length ups = length chs) by (apply mapM_length in Hu; exact Hu).
  exists parts, (share_list E v0), (share_list E v1). split; [exact Hp|].
  assert (L0 : length (share_list E v0) = length chs) by (unfold share_list; cbn; rewrite !map_length; exact Hul). assert (L1 : length (share_list E v1) = length chs) by (unfold share_list; cbn; rewrite !map_length; exact Hul).
  split; [|split].
  - apply Forall2_nth. split; [congruence|]. intros k u w Hk Hw. assert (Hlt : k < length ups) by (apply nth_error_Some; congruence). destruct (K0 k ltac:(lia)) as (h & r & y & Hr & Hy & Hn). rewrite Hw in Hn. injection Hn as <-.
    cbn in Hr, Hy. rewrite I0 in Hy. rewrite !nth_error_map', Hk in Hr. cbn in Hr. injection Hr as _ <-. exact Hy.
  - apply Forall2_nth. split; [congruence|]. intros k u w Hk Hw. assert (Hlt : k < length ups) by (apply nth_error_Some; congruence). destruct (K1 k ltac:(lia)) as (h & r & y & Hr & Hy & Hn). rewrite Hw in Hn. injection Hn as <-.
    cbn in Hr, Hy. rewrite I1 in Hy. rewrite !nth_error_map', Hk in Hr. cbn in Hr. injection Hr as _ <-. exact Hy.
  - assert (Hall : asked E (main_pm_p fuel E shard cfg clients vk chs) s0 s1 = both (QReset vk len) :: map halves parts ++ flat_map (pm_requests (share_list E v0) (share_list E v1)) (bounds (length chs) (cfg_query_batch cfg))).
    { unfold main_pm_p. rewrite Hh, Hist, Hz. cbn [negb asked]. rewrite (alone_map E _ _ _ (gen_prio_report shard len)) by reflexivity. rewrite Hrep.
      rewrite (asked_unit _ _ _ _ _ _ _ (interp_reset _ _ _ _ _)). unfold reset_p. rewrite asked_one, Hh, Hres. cbn [app]. unfold both at 1. f_equal.
      rewrite (asked_unit _ _ _ _ _ _ _ (interp_upload _ _ _ _ _ _ _)), Hua. f_equal. rewrite (upload_spec fuel E cfg reports chs ups u0 u1 Ha Hf P0 P1 Hu).
      fold v0 v1. rewrite asked_pure. unfold step_by. rewrite (proj2 (Nat.eqb_neq _ _)) by lia. exact A. }
    assert (Hfm : forall (f : request * request -> request) (g : nat * nat -> list (request * request)) l, map f (flat_map g l) = flat_map (fun r => map f (g r)) l).
    { intros f g l. induction l as [|y l IH]; cbn [flat_map map]; [reflexivity|]. rewrite map_app, IH. reflexivity. }
    rewrite Hall. cbn [map]. rewrite !map_app, !map_map, !Hfm. unfold pm_script. rewrite L0, L1. split; reflexivity.
Qed.
