(** Proofs for C85. *)
From Verif Require Import Base BaseFacts Field Util UtilFacts Env Prg Vidpf Merkle Collect Server ServerFacts Driver DriverFacts Modes SpecPrg Sched SpecSched SchedFacts SchedRun System SystemFacts
  SpecVidpf SpecLevel SpecWhh SpecMetrics SpecModes CollectFacts VidpfFacts MetricsFacts PmFacts LevelFacts WhhMain ModesFacts ModesMain PmMain SpecTamper TamperFacts SpecDrop WhhFacts SpecCollect.
From Coq Require Import Lia Permutation Bool.

(** the row as the driver sees it *)
Definition disown (D : nat -> bool) (iw : nat * row) : row :=
  {| w_vals0 := w_vals0 (snd iw); w_vals1 := w_vals1 (snd iw); w_fit := w_fit (snd iw); w_agree := w_agree (snd iw) && negb (D (fst iw)) |}.
Definition disowned (D : nat -> bool) (s : nat) (ws : list row) : list row := map (disown D) (tagged s ws).
Lemma disowned_cons D s w ws : disowned D s (w :: ws) = disown D (s, w) :: disowned D (S s) ws.  Proof. reflexivity. Qed.
Lemma disowned_length D ws : forall s, length (disowned D s ws) = length ws.
Proof. induction ws as [|w ws IH]; intros s; [reflexivity|]. rewrite disowned_cons. cbn [length]. rewrite IH. reflexivity. Qed.
Lemma disowned_app D a b s : disowned D s (a ++ b) = disowned D s a ++ disowned D (s + length a) b.
Proof. unfold disowned. rewrite tagged_app, map_app. reflexivity. Qed.
Lemma disowned_vals0 D ws : forall s, map w_vals0 (disowned D s ws) = map w_vals0 ws.
Proof. induction ws as [|w ws IH]; intros s; [reflexivity|]. rewrite disowned_cons. cbn [map]. rewrite IH. reflexivity. Qed.
Lemma disowned_vals1 D ws : forall s, map w_vals1 (disowned D s ws) = map w_vals1 ws.
Proof. induction ws as [|w ws IH]; intros s; [reflexivity|]. rewrite disowned_cons. cbn [map]. rewrite IH. reflexivity. Qed.
Lemma disowned_firstn D ws : forall n s, firstn n (disowned D s ws) = disowned D s (firstn n ws).
Proof. induction ws as [|w ws IH]; intros [|n] s; try reflexivity. cbn [firstn]. rewrite !disowned_cons. cbn [firstn]. rewrite IH. reflexivity. Qed.

Section Drop.
Variables (E : env) (cfg : config) (len : nat) (vk : bytes) (attrs : list (list bool)).
Hypothesis Hlen : cfg_hist cfg = len.
Variables (who : bool) (spoil : bytes -> bytes) (D : nat -> bool).
Hypothesis Hspoil : forall h, spoil h <> h.
Notation run := (tampered E who (spoil_proofs spoil D)).
Notation side := (ModesFacts.side E len vk).

(** the answers with the proofs spoilt *)
Definition spoilt (s : nat) (l : list (list (list fld) * list fld * bytes)) : list (list (list fld) * list fld * bytes) :=
  mapi s (fun i x => (fst x, if D i then spoil (snd x) else snd x)) l.
Lemma spoilt_cons s x l : spoilt s (x :: l) = (fst x, if D s then spoil (snd x) else snd x) :: spoilt (S s) l.  Proof. reflexivity. Qed.
Lemma spoilt_length l : forall s, length (spoilt s l) = length l.  Proof. intros s. apply mapi_length. Qed.
Lemma made_spoilt l0 : forall l1 ws s, length l0 = length l1 -> made E len l0 l1 ws ->
  Forall (fun w => w_agree w = true) ws ->
  made E len (if who then spoilt s l0 else l0) (if who then l1 else spoilt s l1) (disowned D s ws).
Proof.
  unfold made. induction l0 as [|x l0 IH]; intros [|y l1] ws s Hl Hm Ha; try discriminate; cbn [combine] in Hm; inversion Hm as [|z w zs ws' Hz Hr]; subst.
  - destruct who; constructor.
  - injection Hl as Hl. inversion Ha as [|? ? Hw Hws]. subst. rewrite disowned_cons. specialize (IH l1 ws' (S s) Hl Hr Hws). cbn [fst snd] in Hz. destruct Hz as (V0 & V1 & Hf & Hag).
    assert (Heq : snd x = snd y) by (apply Hag, Hw).
    rewrite !spoilt_cons. destruct who; cbn [combine]; (constructor; [|exact IH]); cbn [fst snd disown w_vals0 w_vals1 w_fit w_agree]; (split; [exact V0|]); (split; [exact V1|]); (split; [exact Hf|]);
      rewrite Hw; cbn [andb]; destruct (D s) eqn:HD; cbn [negb].
    + split; [discriminate|]. intros H. rewrite <- Heq in H. destruct (Hspoil _ H).
    + split; auto.
    + split; [discriminate|]. intros H. rewrite Heq in H. symmetry in H. destruct (Hspoil _ H).
    + split; auto.
Qed.
Lemma answer_spoilt a b l : spoil_proofs spoil D (QAbmValidate attrs a b) (AAbm (map (fun x : list (list fld) * list fld * bytes => (snd (fst x), snd x)) l)) =
  AAbm (map (fun x => (snd (fst x), snd x)) (spoilt a l)).
Proof.
  unfold spoil_proofs, spoilt. f_equal.
  assert (G : forall l s, mapi s (fun i (x : list fld * bytes) => (fst x, if D (a + i) then spoil (snd x) else snd x)) (map (fun x : list (list fld) * list fld * bytes => (snd (fst x), snd x)) l) =
    map (fun x => (snd (fst x), snd x)) (mapi (a + s) (fun i (x : list (list fld) * list fld * bytes) => (fst x, if D i then spoil (snd x) else snd x)) l)).
  { clear. induction l as [|x l IH]; intros s; [reflexivity|]. cbn [map]. rewrite !mapi_cons. cbn [map fst snd]. f_equal. replace (S (a + s)) with (a + S s) by lia. apply IH. }
  specialize (G l 0). rewrite Nat.add_0_r in G. exact G.
Qed.

Lemma drop_batch R doneRows ws Rb s0 s1 :
  side true (map fst R) w_vals0 doneRows s0 -> side false (map snd R) w_vals1 doneRows s1 ->
  (forall k r, nth_error Rb k = Some r -> nth_error R (length doneRows + k) = Some r) -> Forall2 (row_of E len vk attrs) Rb ws -> Forall (fun w => w_agree w = true) ws -> ws <> [] ->
  let ws' := disowned D (length doneRows) ws in
  exists t0 t1, run (abm_batch_p E cfg attrs (length doneRows) (length doneRows + length ws)) s0 s1 =
    (if dbg E && existsb twice ws' then Panic PDebugAssert else Ret (t0, t1, row_table (dbg E) len attrs (doneRows ++ ws'))) /\
    side true (map fst R) w_vals0 (doneRows ++ ws') t0 /\ side false (map snd R) w_vals1 (doneRows ++ ws') t1.
Proof.
  intros S0 S1 HR HF Hag Hne ws'. destruct (rows_made E cfg len vk attrs Hlen Rb ws HF) as (l0 & l1 & A0 & A1 & M & L0 & L1 & V0 & V1).
  assert (Hpos : 0 < length ws) by (destruct ws; [contradiction|cbn; lia]).
  assert (HR0 : forall k r, nth_error (map fst Rb) k = Some r -> nth_error (map fst R) (length doneRows + k) = Some r).
  { intros k r H. rewrite nth_error_map' in *. destruct (nth_error Rb k) as [x|] eqn:Hx; [|discriminate]. rewrite (HR _ _ Hx). exact H. }
  assert (HR1 : forall k r, nth_error (map snd Rb) k = Some r -> nth_error (map snd R) (length doneRows + k) = Some r).
  { intros k r H. rewrite nth_error_map' in *. destruct (nth_error Rb k) as [x|] eqn:Hx; [|discriminate]. rewrite (HR _ _ Hx). exact H. }
  pose proof (validate_batch E cfg len vk attrs Hlen true _ _ _ _ _ _ S0 HR0 A0) as Hv0. pose proof (validate_batch E cfg len vk attrs Hlen false _ _ _ _ _ _ S1 HR1 A1) as Hv1. rewrite L0 in Hv0. rewrite L1 in Hv1.
  assert (W0 : map (fun x => fst (fst x)) l0 = map w_vals0 ws') by (rewrite V0; symmetry; apply disowned_vals0).
  assert (W1 : map (fun x => fst (fst x)) l1 = map w_vals1 ws') by (rewrite V1; symmetry; apply disowned_vals1).
  assert (Hlw : length ws' = length ws) by apply disowned_length.
  rewrite (retag _ _ w_vals0 ws' _ W0) in Hv0. rewrite (retag _ _ w_vals1 ws' _ W1) in Hv1.
  pose proof S0 as (P0 & I0 & N0 & K0 & R0 & B0). pose proof S1 as (P1 & I1 & N1 & K1 & R1 & B1).
  set (c0 := set_abm (s_coll s0) (rev (map (fun iw => (fst iw, w_vals0 (snd iw))) (tagged (length doneRows) ws')) ++ c_abm (s_coll s0))) in *.
  set (c1 := set_abm (s_coll s1) (rev (map (fun iw => (fst iw, w_vals1 (snd iw))) (tagged (length doneRows) ws')) ++ c_abm (s_coll s1))) in *.
  pose proof (result_batch E cfg len Hlen w_vals0 doneRows ws' c0 (c_abm (s_coll s0)) (length attrs) N0 eq_refl B0) as Hr0.
  pose proof (result_batch E cfg len Hlen w_vals1 doneRows ws' c1 (c_abm (s_coll s1)) (length attrs) N1 eq_refl B1) as Hr1.
  set (m0 := rev (map (fun iw => (fst iw, w_vals0 (snd iw))) (filter (fun iw => kept (dbg E) (snd iw)) (tagged 0 (doneRows ++ ws'))))) in *.
  set (m1 := rev (map (fun iw => (fst iw, w_vals1 (snd iw))) (filter (fun iw => kept (dbg E) (snd iw)) (tagged 0 (doneRows ++ ws'))))) in *.
  exists (set_coll (set_coll s0 c0) (set_abm c0 m0)), (set_coll (set_coll s1 c1) (set_abm c1 m1)).
  assert (Hlt : (length doneRows <? length doneRows + length ws) = true) by (apply Nat.ltb_lt; lia).
  split; [|split; [exact (conj P0 (conj I0 (conj N0 (conj K0 (conj R0 eq_refl)))))|exact (conj P1 (conj I1 (conj N1 (conj K1 (conj R1 eq_refl)))))]].
  unfold abm_batch_p. cbv zeta. cbn [tampered].
  rewrite (proj2 (call2_ret E s0 s1 _ _ (set_coll s0 c0) (set_coll s1 c1) (AAbm (map (fun x => (snd (fst x), snd x)) l0)) (AAbm (map (fun x => (snd (fst x), snd x)) l1)))).
  2:{ split; apply handle_ret; (split; [cbn [prelock]; rewrite Hlt; apply debug_assert_true; reflexivity|]); (split; [assumption|]); eexists; (split; [|reflexivity]); cbn [body]; [rewrite Hv0|rewrite Hv1]; reflexivity. }
  cbn [bind]. rewrite !answer_spoilt. pose proof (made_spoilt l0 l1 ws (length doneRows) ltac:(congruence) M Hag) as M'. fold ws' in M'.
  set (l0' := if who then spoilt (length doneRows) l0 else l0) in *. set (l1' := if who then l1 else spoilt (length doneRows) l1) in *.
  replace (if who then AAbm (map (fun x : list (list fld) * list fld * bytes => (snd (fst x), snd x)) (spoilt (length doneRows) l0)) else AAbm (map (fun x => (snd (fst x), snd x)) l0)) with (AAbm (map (fun x : list (list fld) * list fld * bytes => (snd (fst x), snd x)) l0')) by (unfold l0'; destruct who; reflexivity).
  replace (if who then AAbm (map (fun x : list (list fld) * list fld * bytes => (snd (fst x), snd x)) l1) else AAbm (map (fun x => (snd (fst x), snd x)) (spoilt (length doneRows) l1))) with (AAbm (map (fun x : list (list fld) * list fld * bytes => (snd (fst x), snd x)) l1')) by (unfold l1'; destruct who; reflexivity).
  assert (L0' : length l0' = length ws) by (unfold l0'; destruct who; rewrite ?spoilt_length; exact L0). assert (L1' : length l1' = length ws) by (unfold l1'; destruct who; rewrite ?spoilt_length; exact L1).
  rewrite tam_pure, !map_length, L0'. replace (length doneRows + length ws - length doneRows) with (length ws) by lia. rewrite Nat.eqb_refl. cbn [assert_ bind]. rewrite tam_pure, L1', Nat.eqb_refl. cbn [assert_ bind].
  rewrite tam_pure, Hlen, (rejected_rows E cfg len Hlen l0' l1' ws') by (try exact M'; congruence). cbn [bind tampered].
  destruct (dbg E && existsb twice ws') eqn:Ht.
  - assert (Hh : handle E (set_coll s0 c0) (QAbmResult (flat_map marks (tagged (length doneRows) ws')) (length attrs) (length doneRows) (length doneRows + length ws)) = (set_poison (set_coll s0 c0), Panic PDebugAssert)).
    { unfold handle. cbn [prelock]. rewrite Hlt, debug_assert_true by reflexivity. cbn [set_coll s_poison s_coll body]. rewrite P0, Hr0. reflexivity. }
    unfold call2. rewrite Hh. destruct (handle E (set_coll s1 c1) _) as [x y]. reflexivity.
  - rewrite (proj2 (call2_ret E (set_coll s0 c0) (set_coll s1 c1) _ _ (set_coll (set_coll s0 c0) (set_abm c0 m0)) (set_coll (set_coll s1 c1) (set_abm c1 m1))
       (AFields (map (fun a => map (fun j => total a j (map w_vals0 (filter (kept (dbg E)) (doneRows ++ ws')))) (seq 0 len)) (seq 0 (length attrs))))
       (AFields (map (fun a => map (fun j => total a j (map w_vals1 (filter (kept (dbg E)) (doneRows ++ ws')))) (seq 0 len)) (seq 0 (length attrs)))))).
    2:{ split; apply handle_ret; (split; [cbn [prelock]; rewrite Hlt; apply debug_assert_true; reflexivity|]); (split; [assumption|]); eexists; (split; [|reflexivity]); cbn [body set_coll s_coll]; [rewrite Hr0|rewrite Hr1]; reflexivity. }
    cbn [bind]. transitivity (Ret (set_coll (set_coll s0 c0) (set_abm c0 m0), set_coll (set_coll s1 c1) (set_abm c1 m1), combine attrs (add_all (map (fun a => map (fun j => total a j (map w_vals0 (filter (kept (dbg E)) (doneRows ++ ws')))) (seq 0 len)) (seq 0 (length attrs)))
      (map (fun a => map (fun j => total a j (map w_vals1 (filter (kept (dbg E)) (doneRows ++ ws')))) (seq 0 len)) (seq 0 (length attrs)))))); [destruct who; reflexivity|].
    do 3 f_equal. rewrite (add_tables len (length attrs) (fun a j => total a j _) (fun a j => total a j _)). unfold row_table, cell. f_equal.
    apply map_ext. intros a. apply map_ext. intros j. unfold total. rewrite !map_map. apply fsum_add.
Qed.

Lemma drop_batches R rows : Forall2 (row_of E len vk attrs) R rows -> Forall (fun w => w_agree w = true) rows -> 0 < cfg_query_batch cfg ->
  forall fuel before rest s0 s1, rows = before ++ rest -> length rest <= fuel ->
  side true (map fst R) w_vals0 (disowned D 0 before) s0 -> side false (map snd R) w_vals1 (disowned D 0 before) s1 ->
  exists t0 t1, run (abm_batches_p E cfg attrs (length rows) (Driver.steps fuel (length before) (length rows) (cfg_query_batch cfg))) s0 s1 =
    if dbg E && existsb twice (disowned D (length before) rest) then Panic PDebugAssert else
    Ret (t0, t1, map (fun st => row_table (dbg E) len attrs (disowned D 0 (firstn (Nat.min (length rows) (st + cfg_query_batch cfg)) rows))) (Driver.steps fuel (length before) (length rows) (cfg_query_batch cfg))).
Proof.
  intros HF HA Hb. set (b := cfg_query_batch cfg) in *.
  induction fuel as [|fuel IH]; intros before rest s0 s1 Hrows Hf S0 S1; cbn [Driver.steps].
  - destruct rest; [|cbn in Hf; lia]. cbn [disowned tagged length seq combine map existsb]. rewrite andb_false_r. cbn. eauto.
  - assert (Hll : length rows = length before + length rest) by (rewrite Hrows; apply app_length).
    destruct (length before <? length rows) eqn:Hlt.
    2:{ apply Nat.ltb_ge in Hlt. destruct rest; [|cbn in Hll; lia]. cbn [disowned tagged length seq combine map existsb]. rewrite andb_false_r. cbn. eauto. }
    apply Nat.ltb_lt in Hlt. cbn [abm_batches_p]. cbv zeta.
    set (ws := firstn b rest). set (rest' := skipn b rest).
    assert (Hr : rest = ws ++ rest') by (symmetry; apply firstn_skipn).
    assert (Hlw : length ws = Nat.min b (length rest)) by apply firstn_length.
    assert (Hstop : Nat.min (length rows) (length before + b) = length before + length ws) by lia.
    fold b. rewrite Hstop.
    assert (HRb : Forall2 (row_of E len vk attrs) (firstn (length ws) (skipn (length before) R)) ws).
    { rewrite Hrows, Hr in HF. clear -HF. apply Forall2_app_inv_r in HF. destruct HF as (R1 & R2 & H1 & H2 & ->). apply Forall2_app_inv_r in H2. destruct H2 as (R3 & R4 & H3 & H4 & ->).
      assert (L1 : length R1 = length before) by (induction H1; cbn; congruence). assert (L3 : length R3 = length ws) by (clear -H3; induction H3; cbn; congruence).
      rewrite <- L1, <- L3. rewrite skipn_app, skipn_all, Nat.sub_diag. cbn [skipn app]. rewrite firstn_app, firstn_all, Nat.sub_diag, firstn_O, app_nil_r. exact H3. }
    assert (HAw : Forall (fun w => w_agree w = true) ws).
    { rewrite Hrows, Hr in HA. apply Forall_app in HA. destruct HA as [_ HA]. apply Forall_app in HA. apply HA. }
    assert (Hlb : length (disowned D 0 before) = length before) by apply disowned_length.
    destruct (drop_batch R (disowned D 0 before) ws (firstn (length ws) (skipn (length before) R)) s0 s1 S0 S1) as (t0 & t1 & Hbatch & T0 & T1).
    { rewrite Hlb. intros k r Hk. assert (Hkl : k < length ws). { assert (k < length (firstn (length ws) (skipn (length before) R))) by (apply nth_error_Some; congruence). rewrite firstn_length in *. lia. }
      rewrite <- (firstn_skipn (length ws) (skipn (length before) R)) in *.
      assert (Hk2 : nth_error (skipn (length before) R) k = Some r). { rewrite <- (firstn_skipn (length ws) (skipn (length before) R)). rewrite nth_error_app1; [|apply nth_error_Some; rewrite firstn_skipn in Hk; congruence]. rewrite firstn_skipn in Hk. exact Hk. }
      rewrite nth_error_skipn in Hk2. exact Hk2. }
    { exact HRb. } { exact HAw. }
    { intros Hc. rewrite Hc in Hlw. cbn in Hlw. lia. }
    rewrite Hlb in Hbatch, T0, T1. rewrite tam_bind, Hbatch.
    replace (existsb twice (disowned D (length before) rest)) with (existsb twice (disowned D (length before) ws) || existsb twice (disowned D (length before + length ws) rest')) by (rewrite <- existsb_app, <- disowned_app, <- Hr; reflexivity).
    destruct (dbg E && existsb twice (disowned D (length before) ws)) eqn:Ht.
    { apply andb_true_iff in Ht. destruct Ht as [-> ->]. cbn. eauto. }
    cbn [bind]. rewrite tam_bind.
    replace (dbg E && (existsb twice (disowned D (length before) ws) || existsb twice (disowned D (length before + length ws) rest'))) with (dbg E && existsb twice (disowned D (length before + length ws) rest')) by (destruct (dbg E); [cbn in Ht; rewrite Ht|]; reflexivity).
    assert (Hdo : disowned D 0 before ++ disowned D (length before) ws = disowned D 0 (before ++ ws)) by (rewrite disowned_app; reflexivity).
    destruct (IH (before ++ ws) rest' t0 t1) as (u0 & u1 & Hrest).
    { rewrite <- app_assoc, <- Hr. exact Hrows. }
    { assert (length rest = length ws + length rest') by (rewrite <- app_length, <- Hr; reflexivity). lia. }
    { rewrite <- Hdo. exact T0. } { rewrite <- Hdo. exact T1. }
    exists u0, u1.
    assert (Hst : Driver.steps fuel (length (before ++ ws)) (length rows) b = Driver.steps fuel (length before + b) (length rows) b).
    { rewrite app_length. destruct (Nat.le_gt_cases b (length rest)) as [Hle|Hgt]; [rewrite Hlw; f_equal; lia|].
      rewrite !(steps_spec cfg len Hlen) by lia. replace (length rows - (length before + length ws)) with 0 by lia. replace (length rows - (length before + b)) with 0 by lia. rewrite Nat.div_small by lia. reflexivity. }
    rewrite Hst, app_length in Hrest. rewrite Hrest. destruct (dbg E && existsb twice (disowned D (length before + length ws) rest')); [reflexivity|]. cbn [bind map tampered]. do 3 f_equal.
    rewrite Hstop, Hdo. do 2 f_equal. replace rows with ((before ++ ws) ++ rest') by (rewrite <- app_assoc, <- Hr; symmetry; exact Hrows). rewrite <- app_length, firstn_app, firstn_all, Nat.sub_diag, firstn_O, app_nil_r. reflexivity.
Qed.
Lemma drop_run R rows s0 s1 starts : Forall2 (row_of E len vk attrs) R rows -> Forall (fun w => w_agree w = true) rows -> 0 < cfg_query_batch cfg ->
  untouched true len vk (map fst R) s0 -> untouched false len vk (map snd R) s1 -> step_by (length rows) (cfg_query_batch cfg) = Ret starts ->
  exists t0 t1, run (abm_batches_p E cfg attrs (length rows) starts) s0 s1 =
    if dbg E && existsb twice (disowned D 0 rows) then Panic PDebugAssert else
    Ret (t0, t1, map (fun e => row_table (dbg E) len attrs (disowned D 0 (firstn e rows))) (batch_ends (length rows) (cfg_query_batch cfg))).
Proof.
  intros HF HA Hb (P0 & I0 & N0 & K0 & R0 & B0) (P1 & I1 & N1 & K1 & R1 & B1).
  unfold step_by. rewrite (proj2 (Nat.eqb_neq _ _)) by lia. intros [= <-].
  destruct (drop_batches R rows HF HA Hb (length rows) [] rows s0 s1 eq_refl (Nat.le_refl _)) as (t0 & t1 & H).
  { repeat (split; [assumption|]). exact B0. } { repeat (split; [assumption|]). exact B1. }
  exists t0, t1. cbn [length] in H. rewrite H. rewrite <- (step_ends cfg len Hlen) by exact Hb. rewrite map_map. reflexivity.
Qed.
End Drop.

(** *** honest clients *)
Section Honest.
Variables (E : env) (len : nat) (vk : bytes) (clients : list client) (reports : list plaintext_report) (attrs : list (list bool)) (D : nat -> bool).
Notation honest_row := (honest_row E len vk clients reports attrs).
(** some report in D is invalid *)
Definition doubly (chs : list choice) : bool := existsb (fun ich => negb (counts (snd ich)) && D (fst ich)) (numbered chs).
Lemma doubly_spec chs : doubly chs = false <-> forall i ch, nth_error chs i = Some ch -> D i = true -> counts ch = true.
Proof.
  unfold doubly, numbered. change (combine (seq 0 (length chs)) chs) with (tagged 0 chs).
  assert (G : forall l s, existsb (fun ich => negb (counts (snd ich)) && D (fst ich)) (tagged s l) = false <-> forall i ch, nth_error l i = Some ch -> D (s + i) = true -> counts ch = true).
  { induction l as [|x l IH]; intros s; [split; [intros _ [|i] ch H; discriminate|reflexivity]|].
    change (tagged s (x :: l)) with ((s, x) :: tagged (S s) l). cbn [existsb fst snd]. rewrite orb_false_iff, IH, andb_false_iff, negb_false_iff. split.
    - intros [H1 H2] [|i] ch Hn HD; cbn in Hn; [injection Hn as <-; rewrite Nat.add_0_r in HD; destruct H1; congruence|]. apply (H2 i ch Hn). replace (S s + i) with (s + S i) by lia. exact HD.
    - intros H. split; [|intros i ch Hn HD; apply (H (S i) ch Hn); replace (s + S i) with (S s + i) by lia; exact HD].
      destruct (D s) eqn:HD; [left|right; reflexivity]. apply (H 0 x eq_refl). rewrite Nat.add_0_r. exact HD. }
  exact (G chs 0).
Qed.
Lemma twice_doubly l : forall ws s, Forall2 honest_row l ws -> existsb twice (disowned D s ws) = existsb (fun ich => negb (counts (snd ich)) && D (fst ich)) (tagged s l).
Proof.
  induction l as [|ch l IH]; intros ws s H; inversion H as [|? w ? ws' (Hr & Hfit & Hsame & _) HF]; subst; [reflexivity|].
  rewrite disowned_cons. change (tagged s (ch :: l)) with ((s, ch) :: tagged (S s) l). cbn [existsb fst snd]. rewrite (IH _ _ HF). f_equal.
  unfold twice. cbn [disown w_fit w_agree fst snd]. rewrite Hfit, Hsame. cbn [andb]. rewrite negb_involutive. reflexivity.
Qed.
Lemma cell_without l : forall ws s a attr j, Forall2 honest_row l ws -> nth_error attrs a = Some attr -> j < len ->
  cell (filter (kept (dbg E)) (disowned D s ws)) a j =
  of_Z (tally_bucket (flat_map (fun ich => if negb (dbg E) || counts (snd ich) && negb (D (fst ich)) then match nth_error clients (ch_idx (snd ich)) with Some cl => [(cl_alpha cl, cl_bucket cl)] | None => [] end else []) (tagged s l)) attr j).
Proof.
  unfold cell, tally_bucket. induction l as [|ch l IH]; intros ws s a attr j H Ha Hj; inversion H as [|? w ? ws' (Hr & Hfit & Hsame & cl & Hc & Hv) HF]; subst; [reflexivity|].
  rewrite disowned_cons. change (tagged s (ch :: l)) with ((s, ch) :: tagged (S s) l). cbn [flat_map filter fst snd]. specialize (IH ws' (S s) a attr j HF Ha Hj).
  unfold kept at 1. cbn [disown w_fit w_agree fst snd]. rewrite Hfit, Hsame, Hc. cbn [andb].
  destruct (negb (dbg E) || counts ch && negb (D s)); cbn [app]; [|exact IH].
  cbn [map fsum filter fst snd disown w_vals0 w_vals1]. rewrite (Hv a attr j Ha Hj), IH. destruct (is_prefix attr (cl_alpha cl) && (cl_bucket cl =? j)).
  - cbn [length]. rewrite <- of_Z_add. f_equal. lia.
  - change (of_Z 0) with fzero. ring.
Qed.
Lemma table_without l ws : Forall2 honest_row l ws -> row_table (dbg E) len attrs (disowned D 0 ws) = tally_table len attrs (in_table_without (dbg E) D clients l).
Proof.
  intros HF. unfold row_table, tally_table.
  assert (H : forall as' (f : nat -> list fld) s (g : list bool -> list fld), (forall a attr, nth_error as' a = Some attr -> f (s + a) = g attr) -> combine as' (map f (seq s (length as'))) = map (fun a => (a, g a)) as').
  { induction as' as [|x as' IH]; intros f s g H; [reflexivity|]. cbn [length seq map combine]. f_equal; [f_equal; rewrite <- (H 0 x eq_refl); f_equal; lia|]. apply IH. intros a attr Ha. replace (S s + a) with (s + S a) by lia. apply H. exact Ha. }
  apply H. intros a attr Ha. cbn [Nat.add]. apply map_ext_in. intros j Hj. apply in_seq in Hj. apply (cell_without l ws 0 a attr j HF Ha). lia.
Qed.
End Honest.

Lemma main_dropped E who spoil D len bits vk clients reports chs samples order fuel cfg s0 s1 :
  (forall h, spoil h <> h) ->
  env_ok E -> 1 <= bits -> mapM (gen_report E len) clients = Ret reports ->
  Forall (good_client E len bits vk) clients -> Forall (good_choice E len vk reports) chs -> fixed_verifier_len E len ->
  cfg_hist cfg = len -> 0 < cfg_query_batch cfg -> 0 < cfg_add_batch cfg -> hist_ok len = true -> clients <> [] -> length chs <= fuel ->
  running 0 bits s0 -> (exists id, id <> 0%Z /\ running id bits s1) ->
  (forall s, In s samples -> 1 <= s < length clients) -> (forall l, Permutation (order l) l) ->
  exists t0 t1 attrs, tampered E who (spoil_proofs spoil D) (main_abm_p fuel E cfg clients vk chs samples order) s0 s1 =
    (if dbg E && doubly D chs then Panic PDebugAssert else
     Ret (t0, t1, map (fun e => tally_table len attrs (in_table_without (dbg E) D clients (firstn e chs))) (batch_ends (length chs) (cfg_query_batch cfg)))) /\
    NoDup attrs /\ forall a, In a attrs <-> exists i cl, In i samples /\ nth_error clients i = Some cl /\ a = cl_alpha cl.
Proof.
  intros Hsp Hok Hb Hrep Hcl Hch Hver Hh Hq Ha Hist Hne Hf (P0 & I0 & B0) (id & Hid & P1 & I1 & B1) Hs Hord.
  pose proof (reports_alphas E len clients reports Hok Hrep) as Hal. pose proof (Forall2_len _ _ _ Hal) as Hll.
  destruct (sample_ok reports samples) as (attrs & Hat & Hnd & Hin).
  { intros r Hr. clear -Hal Hr. induction Hal as [|cl r' l l' H1 H2 IH]; [destruct Hr|]. destruct Hr as [->|Hr]; [eauto|auto]. }
  { intros s Hss. rewrite <- Hll. apply Hs. exact Hss. }
  assert (Hin2 : forall a, In a (order attrs) <-> exists i cl, In i samples /\ nth_error clients i = Some cl /\ a = cl_alpha cl).
  { intros a. assert (Hp : In a (order attrs) <-> In a attrs) by (split; apply Permutation_in; [|apply Permutation_sym]; apply Hord). rewrite Hp, Hin. clear -Hal.
    apply Forall2_nth in Hal. destruct Hal as [Hl Hal]. split.
    - intros (i & r & H1 & H2 & H3). destruct (nth_error clients i) as [cl|] eqn:Hc; [|apply nth_error_None in Hc; assert (i < length reports) by (apply nth_error_Some; congruence); lia].
      exists i, cl. split; [exact H1|]. split; [exact Hc|]. rewrite (Hal _ _ _ Hc H2) in H3. congruence.
    - intros (i & cl & H1 & H2 & ->). destruct (nth_error reports i) as [r|] eqn:Hr; [|apply nth_error_None in Hr; assert (i < length clients) by (apply nth_error_Some; congruence); lia].
      exists i, r. split; [exact H1|]. split; [exact Hr|]. apply (Hal _ _ _ H2 Hr). }
  assert (Hattrs : forall a, In a (order attrs) -> 1 <= length a <= bits).
  { intros a Hia. apply Hin2 in Hia. destruct Hia as (i & cl & _ & Hc & ->). rewrite Forall_forall in Hcl. destruct (Hcl cl (nth_error_In _ _ Hc)) as (_ & _ & Hlen & _). lia. }
  assert (Hreset : forall s, s_poison s = false -> handle E s (QReset vk len) = (set_coll s (coll_new len (s_id s) (s_bits s) vk), Ret ADone)).
  { intros s Hp. apply handle_ret. split; [reflexivity|]. split; [exact Hp|]. eexists. split; [|reflexivity]. cbn [body]. rewrite Hist. reflexivity. }
  set (u0 := set_coll s0 (coll_new len (s_id s0) (s_bits s0) vk)). set (u1 := set_coll s1 (coll_new len (s_id s1) (s_bits s1) vk)).
  destruct (rows_exist E Hok len bits vk clients reports chs Hb Hrep Hcl Hch Hver (order attrs) Hattrs) as [rows Hrows].
  assert (Hl : length rows = length chs) by (clear -Hrows; induction Hrows; cbn; congruence).
  assert (Hst : exists starts, step_by (length rows) (cfg_query_batch cfg) = Ret starts) by (unfold step_by; rewrite (proj2 (Nat.eqb_neq _ _)) by lia; eauto). destruct Hst as [starts Hst].
  destruct (drop_run E cfg len vk (order attrs) Hh who spoil D Hsp (map (fun ch => (share0 reports ch, share1 reports ch)) chs) rows (with_reports u0 (map (share0 reports) chs)) (with_reports u1 (map (share1 reports) chs)) starts) as (t0 & t1 & Hrun).
  { clear -Hrows. induction Hrows as [|ch w l ws [H _] HF IH]; cbn [map]; constructor; assumption. }
  { clear -Hrows. induction Hrows as [|ch w l ws (_ & _ & H & _) HF IH]; constructor; assumption. }
  { exact Hq. }
  { rewrite map_map. unfold untouched. cbn. rewrite I0, P0, !map_map. cbn. rewrite ?map_id. repeat (split; [reflexivity|]). reflexivity. }
  { rewrite map_map. unfold untouched. cbn. rewrite I1, P1, !map_map. cbn. split; [reflexivity|]. split; [apply Z.eqb_neq; exact Hid|]. repeat (split; [reflexivity|]). reflexivity. }
  { exact Hst. }
  rewrite (twice_doubly _ _ _ _ _ _ D chs rows 0 Hrows) in Hrun. change (existsb _ (tagged 0 chs)) with (doubly D chs) in Hrun.
  exists t0, t1, (order attrs). split; [|split; [|exact Hin2]].
  - unfold main_abm_p. rewrite Hh, Hist. cbn [negb]. destruct (length clients =? 0) eqn:Hz; [apply Nat.eqb_eq, length_zero_iff_nil in Hz; contradiction|]. cbn [tampered]. rewrite (alone_reports E), Hrep. cbn [bind].
    rewrite tam_bind, (quiet_same E who (spoil_proofs spoil D)) by (apply quiet_reset; reflexivity). rewrite interp_reset. unfold reset_servers. rewrite Hh.
    rewrite (proj2 (call2_done_ret _ _ _ _ _ _ _)) by (do 2 eexists; split; apply Hreset; assumption). cbn [bind unit_of]. fold u0 u1.
    rewrite tam_bind, (quiet_same E who (spoil_proofs spoil D)) by (apply quiet_upload; reflexivity). rewrite interp_upload.
    rewrite (upload_spec fuel E cfg reports chs _ u0 u1 Ha Hf P0 P1 (uploads_ret E Hok len bits vk clients reports chs Hb Hrep Hcl Hch)). cbn [bind unit_of]. rewrite !map_map. cbn [fst snd].
    rewrite tam_pure, Hat. cbn [bind]. rewrite tam_pure, <- Hl, Hst. cbn [bind]. etransitivity; [exact Hrun|].
    destruct (dbg E && doubly D chs); [reflexivity|]. do 2 f_equal. apply map_ext. intros e. apply (table_without E len vk clients reports). apply forall2_firstn. exact Hrows.
  - apply (Permutation_NoDup (Permutation_sym (Hord attrs))). exact Hnd.
Qed.

(** *** in release builds *)
Lemma reject_release E m l : dbg E = false -> abm_reject E m l = Ret m.
Proof. intros H. unfold abm_reject. rewrite H. induction l as [|i l IH]; [reflexivity|]. exact IH. Qed.
Lemma handle_release E s rej rej' n a b : dbg E = false -> handle E s (QAbmResult rej n a b) = handle E s (QAbmResult rej' n a b).
Proof.
  intros H. assert (Hb : forall s, body E s (QAbmResult rej n a b) = body E s (QAbmResult rej' n a b)) by (intros u; cbn [body]; unfold abm_result; rewrite !(reject_release E) by exact H; reflexivity).
  unfold handle. change (prelock E (QAbmResult rej' n a b)) with (prelock E (QAbmResult rej n a b)). rewrite Hb. reflexivity.
Qed.
Section Release.
Variables (E : env) (who : bool) (alter : request -> response -> response).
Hypothesis Hd : dbg E = false.
Hypothesis Ha : about_validation alter.
Notation run := (tampered E who alter).
Lemma release_batch cfg attrs start stop s0 s1 x y : run (abm_batch_p E cfg attrs start stop) s0 s1 = Ret x -> interp E (abm_batch_p E cfg attrs start stop) s0 s1 = Ret y -> x = y.
Proof.
  unfold abm_batch_p. cbv zeta. cbn [tampered interp]. destruct (call2 E s0 s1 _ _) as [[[t0 t1] [r0 r1]]|e]; cbn [bind]; [|discriminate].
  set (r0' := if who then alter _ r0 else r0). set (r1' := if who then r1 else alter _ r1). clearbody r0' r1'.
  destruct r0' as [| | | | |l0'| |]; try discriminate. destruct r1' as [| | | | |l1'| |]; try discriminate.
  rewrite tam_pure. destruct (assert_ _); [|discriminate]. cbn [bind]. rewrite tam_pure. destruct (assert_ _); [|discriminate]. cbn [bind]. rewrite tam_pure. destruct (abm_rejected _ _ _ (combine l0' l1')) as [rej'|e]; [|discriminate]. cbn [bind tampered].
  destruct r0 as [| | | | |l0| |]; try discriminate. destruct r1 as [| | | | |l1| |]; try discriminate.
  rewrite interp_pure. destruct (assert_ _); [|discriminate]. cbn [bind]. rewrite interp_pure. destruct (assert_ _); [|discriminate]. cbn [bind]. rewrite interp_pure. destruct (abm_rejected _ _ _ (combine l0 l1)) as [rej|e]; [|discriminate]. cbn [bind interp].
  assert (Hc : call2 E t0 t1 (QAbmResult rej' (length attrs) start stop) (QAbmResult rej' (length attrs) start stop) = call2 E t0 t1 (QAbmResult rej (length attrs) start stop) (QAbmResult rej (length attrs) start stop)).
  { unfold call2. rewrite !(handle_release E _ rej' rej) by exact Hd. reflexivity. }
  rewrite Hc. clear Hc. set (o := call2 E t0 t1 (QAbmResult rej _ _ _) _). clearbody o. destruct o as [[[u0 u1] [g0 g1]]|e]; cbn [bind]; [|intros HX; inversion HX]. rewrite !Ha by (intros; discriminate).
  replace (if who then g0 else g0) with g0 by (destruct who; reflexivity). replace (if who then g1 else g1) with g1 by (destruct who; reflexivity).
  destruct g0 as [|v0| | | | | |]; try discriminate. destruct g1 as [|v1| | | | | |]; try discriminate. cbn [tampered interp bind]. congruence.
Qed.
Lemma release_batches cfg attrs num : forall starts s0 s1 x y, run (abm_batches_p E cfg attrs num starts) s0 s1 = Ret x -> interp E (abm_batches_p E cfg attrs num starts) s0 s1 = Ret y -> x = y.
Proof.
  induction starts as [|st starts IH]; intros s0 s1 x y; cbn [abm_batches_p]; [cbn [tampered interp]; congruence|]. cbv zeta. rewrite tam_bind, interp_bind.
  pose proof (release_batch cfg attrs st (Nat.min num (st + cfg_query_batch cfg)) s0 s1) as Hb.
  destruct (run (abm_batch_p E cfg attrs st _) s0 s1) as [[[t0 t1] t]|e]; [|discriminate]. destruct (interp E (abm_batch_p E cfg attrs st _) s0 s1) as [[[u0 u1] u]|e]; [|discriminate].
  specialize (Hb _ _ eq_refl eq_refl). injection Hb as -> -> ->. cbn [bind]. rewrite tam_bind, interp_bind. specialize (IH u0 u1).
  destruct (run (abm_batches_p E cfg attrs num starts) u0 u1) as [[[t0 t1] t]|e]; [|discriminate]. destruct (interp E (abm_batches_p E cfg attrs num starts) u0 u1) as [[[w0 w1] w]|e]; [|discriminate].
  specialize (IH _ _ eq_refl eq_refl). injection IH as -> -> ->. cbn [bind tampered interp]. congruence.
Qed.
Lemma release_main fuel cfg clients vk chs samples order s0 s1 x y :
  run (main_abm_p fuel E cfg clients vk chs samples order) s0 s1 = Ret x -> main_abm fuel E cfg clients vk chs samples order s0 s1 = Ret y -> x = y.
Proof.
  rewrite <- interp_main_abm. unfold main_abm_p. destruct (negb (hist_ok (cfg_hist cfg))); [discriminate|]. destruct (length clients =? 0); [discriminate|]. cbn [tampered interp]. destruct (alone E _) as [reports|e]; cbn [bind]; [|discriminate].
  rewrite tam_bind, interp_bind, (quiet_same E who alter) by (apply quiet_reset; intros; apply Ha; intros; discriminate). destruct (interp E (reset_p cfg vk) s0 s1) as [[[t0 t1] []]|e]; cbn [bind]; [|discriminate].
  rewrite tam_bind, interp_bind, (quiet_same E who alter) by (apply quiet_upload; intros; apply Ha; intros; discriminate). destruct (interp E (upload_p fuel cfg reports chs) t0 t1) as [[[u0 u1] []]|e]; cbn [bind]; [|discriminate].
  rewrite tam_pure, interp_pure. destruct (sample_attributes reports samples) as [attrs|e]; cbn [bind]; [|discriminate]. rewrite tam_pure, interp_pure. destruct (step_by _ _) as [starts|e]; cbn [bind]; [|discriminate]. apply release_batches.
Qed.
End Release.

Lemma valid_dropped E who spoil D len bits vk clients reports chs samples order fuel cfg s0 s1 :
  dbg E = true -> (forall h, spoil h <> h) -> (forall i ch, nth_error chs i = Some ch -> D i = true -> counts ch = true) ->
  env_ok E -> 1 <= bits -> mapM (gen_report E len) clients = Ret reports ->
  Forall (good_client E len bits vk) clients -> Forall (good_choice E len vk reports) chs -> fixed_verifier_len E len ->
  cfg_hist cfg = len -> 0 < cfg_query_batch cfg -> 0 < cfg_add_batch cfg -> hist_ok len = true -> clients <> [] -> length chs <= fuel ->
  running 0 bits s0 -> (exists id, id <> 0%Z /\ running id bits s1) ->
  (forall s, In s samples -> 1 <= s < length clients) -> (forall l, Permutation (order l) l) ->
  exists t0 t1 attrs, tampered E who (spoil_proofs spoil D) (main_abm_p fuel E cfg clients vk chs samples order) s0 s1 =
    Ret (t0, t1, map (fun e => tally_table len attrs (in_table_without true D clients (firstn e chs))) (batch_ends (length chs) (cfg_query_batch cfg))) /\
    NoDup attrs /\ forall a, In a attrs <-> exists i cl, In i samples /\ nth_error clients i = Some cl /\ a = cl_alpha cl.
Proof.
  intros Hd Hsp HD H1 H2 H3 H4 H5 H6 H7 H8 H9 H10 H11 H12 H13 H14 H15 H16. apply doubly_spec in HD.
  destruct (main_dropped E who spoil D len bits vk clients reports chs samples order fuel cfg s0 s1 Hsp H1 H2 H3 H4 H5 H6 H7 H8 H9 H10 H11 H12 H13 H14 H15 H16) as (t0 & t1 & attrs & H & Hr).
  rewrite Hd, HD in H. exists t0, t1, attrs. exact (conj H Hr).
Qed.
Lemma invalid_dropped E who spoil D len bits vk clients reports chs samples order fuel cfg s0 s1 :
  dbg E = true -> (forall h, spoil h <> h) -> (exists i ch, nth_error chs i = Some ch /\ D i = true /\ counts ch = false) ->
  env_ok E -> 1 <= bits -> mapM (gen_report E len) clients = Ret reports ->
  Forall (good_client E len bits vk) clients -> Forall (good_choice E len vk reports) chs -> fixed_verifier_len E len ->
  cfg_hist cfg = len -> 0 < cfg_query_batch cfg -> 0 < cfg_add_batch cfg -> hist_ok len = true -> clients <> [] -> length chs <= fuel ->
  running 0 bits s0 -> (exists id, id <> 0%Z /\ running id bits s1) ->
  (forall s, In s samples -> 1 <= s < length clients) -> (forall l, Permutation (order l) l) ->
  tampered E who (spoil_proofs spoil D) (main_abm_p fuel E cfg clients vk chs samples order) s0 s1 = Panic PDebugAssert.
Proof.
  intros Hd Hsp (i & ch & Hn & HD & Hc) H1 H2 H3 H4 H5 H6 H7 H8 H9 H10 H11 H12 H13 H14 H15 H16.
  destruct (main_dropped E who spoil D len bits vk clients reports chs samples order fuel cfg s0 s1 Hsp H1 H2 H3 H4 H5 H6 H7 H8 H9 H10 H11 H12 H13 H14 H15 H16) as (t0 & t1 & attrs & H & _).
  destruct (doubly D chs) eqn:Hdb; [rewrite Hd in H; exact H|]. rewrite (proj1 (doubly_spec D chs) Hdb i ch Hn HD) in Hc. discriminate.
Qed.
