(** C57 for rows and complete runs; the example. *)
From Verif Require Import Base BaseFacts Field Util UtilFacts Env Prg PrgFacts PrgSpecFacts PrgSpecFacts2 Vidpf SpecPrg SpecVidpf SpecTree
  VidpfFacts VidpfEvalFacts VidpfTreeFacts VidpfTreeFacts2 VidpfTreeFacts3 VidpfTreeFacts4 VidpfPropFacts VidpfPropFacts2
  Merkle Collect Server Driver Modes SpecCollect SpecMetrics SpecLevel SpecWhh SpecForge SpecModes SpecAbm LevelFacts MetricsFacts ModesFacts ModesMain AbmForge.

Lemma honest_tree_values E k0 k1 alpha beta attrs v0 b0 t0 v1 b1 t1 : env_ok E -> honest_keys E k0 k1 alpha beta -> alpha <> [] -> (forall a, In a attrs -> 1 <= length a <= length alpha) ->
  eval_tree E k0 attrs (length beta) [] = Ret (v0, b0, t0) -> eval_tree E k1 attrs (length beta) [] = Ret (v1, b1, t1) ->
  b0 = beta_share E (length beta) k0 /\ b1 = beta_share E (length beta) k1 /\ t0 = t1 /\
  forall a attr j, nth_error attrs a = Some attr -> j < length beta -> fadd (comp a j v0) (comp a j v1) = nth j (point_value alpha beta attr) (of_Z 0).
Proof.
  intros Hok Hk Hne Hat H0 H1. destruct (tree_honest E Hok k0 k1 alpha beta attrs Hk Hne Hat) as (u0 & u1 & t & G0 & G1 & Hv).
  rewrite G0 in H0. rewrite G1 in H1. injection H0 as <- <- <-. injection H1 as <- <- <-. auto.
Qed.

Lemma C57_row_lemma E k0 k1 alpha beta : env_ok E -> honest_keys E k0 k1 alpha beta -> 2 <= length alpha ->
  exists sign Y, length Y = 16 /\ forall Z, length Z = 16 -> exists k0' k1', usable (length alpha) k0' /\ usable (length alpha) k1' /\
    forall vk attrs n0 p0 j0 n1 p1 j1 w, (forall a, In a attrs -> 1 <= length a <= length alpha) -> ~ In (sibling alpha) attrs ->
      row_of E (length beta) vk attrs (RSMastic n0 k0 p0 j0, RSMastic n1 k1 p1 j1) w ->
      exists w', row_of E (length beta) vk attrs (RSMastic n0 k0' p0 j0, RSMastic n1 k1' p1 j1) w' /\ w_fit w' = w_fit w /\ w_agree w' = true /\ w_agree w = true /\
        forall a attr j, nth_error attrs a = Some attr -> j < length beta ->
          fadd (comp a j (w_vals0 w')) (comp a j (w_vals1 w')) =
          fadd (fadd (comp a j (w_vals0 w)) (comp a j (w_vals1 w))) (cell_change E (length beta) sign Y Z alpha attr j).
Proof.
  intros Hok Hk Ha. destruct (C57_keys_lemma E k0 k1 alpha beta Hok Hk Ha) as (sign & Y & HY & H). exists sign, Y. split; [exact HY|].
  intros Z HZ. destruct (H Z HZ) as (k0' & k1' & U0 & U1 & R0 & R1 & Hf). exists k0', k1'. split; [exact U0|]. split; [exact U1|].
  intros vk attrs n0 p0 j0 n1 p1 j1 w Hat Hsib (ver0 & h0 & ver1 & h1 & T0 & T1 & Hd & Hag). cbn [fst snd tree_share] in T0, T1.
  destruct (Hf attrs Hat Hsib) as (v0 & v1 & t & G0 & G1 & Hvals).
  destruct (eval_tree E k0 attrs (length beta) []) as [[[x0 b0] t0]|] eqn:E0; [|discriminate]. destruct (eval_tree E k1 attrs (length beta) []) as [[[x1 b1] t1]|] eqn:E1; [|discriminate].
  destruct (honest_tree_values E k0 k1 alpha beta attrs x0 b0 t0 x1 b1 t1 Hok Hk ltac:(intros ->; cbn in Ha; lia) Hat E0 E1) as (-> & -> & -> & Hhv).
  assert (J : forall first n jr k k', root_seed k' = root_seed k -> joint_rand E first (length beta) n k' jr = joint_rand E first (length beta) n k jr).
  { intros first n jr k k' Hr. unfold joint_rand, jr_part. rewrite Hr. reflexivity. }
  destruct (flp_query E (length beta) (beta_share E (length beta) k0) p0 _ _ 2) as [y0|] eqn:Q0; [|discriminate].
  destruct (flp_query E (length beta) (beta_share E (length beta) k1) p1 _ _ 2) as [y1|] eqn:Q1; [|discriminate].
  injection T0 as X0 -> <-. injection T1 as X1 -> <-.
  exists {| w_vals0 := v0; w_vals1 := v1; w_fit := w_fit w; w_agree := true |}. cbn [w_fit w_agree w_vals0 w_vals1]. split; [|split; [reflexivity|split; [reflexivity|split]]].
  - exists ver0, (blake3 E t), ver1, (blake3 E t). cbn [fst snd tree_share w_vals0 w_vals1 w_fit w_agree].
    rewrite G0, G1, (J true _ _ _ _ R0), (J false _ _ _ _ R1), Q0, Q1. repeat (split; [reflexivity|]). split; [exact Hd|]. tauto.
  - apply Hag. reflexivity.
  - intros a attr j Hi Hj. rewrite (Hvals a attr j Hi Hj), <- X0, <- X1, (Hhv a attr j Hi Hj). unfold cell_change.
    destruct (list_eq_dec bool_dec attr alpha) as [->|Hn].
    + f_equal. unfold point_value. rewrite <- (app_nil_r alpha) at 2. rewrite is_prefix_app, app_nth1 by exact Hj. reflexivity.
    + change (of_Z 0) with fzero. ring.
Qed.

(** *** complete runs *)

Lemma C57_run_lemma E cfg len vk attrs R rows i n0 k0 p0 j0 n1 k1 p1 j1 alpha beta w :
  env_ok E -> cfg_hist cfg = len -> Forall2 (row_of E len vk attrs) R rows -> 0 < cfg_query_batch cfg ->
  existsb (fun w => negb (w_fit w) && negb (w_agree w)) rows = false ->
  nth_error R i = Some (RSMastic n0 k0 p0 j0, RSMastic n1 k1 p1 j1) -> nth_error rows i = Some w -> w_fit w = true ->
  honest_keys E k0 k1 alpha beta -> length beta = len -> 2 <= length alpha ->
  (forall a, In a attrs -> 1 <= length a <= length alpha) -> ~ In (sibling alpha) attrs ->
  exists sign Y, length Y = 16 /\ forall Z, length Z = 16 -> exists k0' k1' rows',
    let R' := replace_at i (RSMastic n0 k0' p0 j0, RSMastic n1 k1' p1 j1) R in
    Forall2 (row_of E len vk attrs) R' rows' /\
    (forall s0' s1', untouched true len vk (map fst R') s0' -> untouched false len vk (map snd R') s1' ->
       exists t0 t1, run_abm E cfg s0' s1' attrs (length rows) =
         Ret (t0, t1, map (fun e => row_table (dbg E) len attrs (firstn e rows')) (batch_ends (length rows) (cfg_query_batch cfg)))) /\
    forall e a attr j, nth_error attrs a = Some attr -> j < len ->
      cell (filter (kept (dbg E)) (firstn e rows')) a j =
      fadd (cell (filter (kept (dbg E)) (firstn e rows)) a j) (if i <? e then cell_change E len sign Y Z alpha attr j else of_Z 0).
Proof.
  intros Hok Hlen HF Hq Hpan Hi Hw Hfit Hk Hb Ha Hat Hsib. subst len.
  destruct (C57_row_lemma E k0 k1 alpha beta Hok Hk Ha) as (sign & Y & HY & H). exists sign, Y. split; [exact HY|].
  intros Z HZ. destruct (H Z HZ) as (k0' & k1' & _ & _ & Hf). exists k0', k1'. rewrite Hb in *.
  assert (Hrow : row_of E (cfg_hist cfg) vk attrs (RSMastic n0 k0 p0 j0, RSMastic n1 k1 p1 j1) w).
  { clear -HF Hi Hw. revert i Hi Hw. induction HF as [|x y l l' Hxy HF IH]; intros [|i] Hi Hw; try discriminate; [injection Hi as ->; injection Hw as ->; exact Hxy|]. exact (IH i Hi Hw). }
  destruct (Hf vk attrs n0 p0 j0 n1 p1 j1 w Hat Hsib Hrow) as (w' & Hr' & Hfit' & Hag' & Hag & Hvals).
  exists (replace_at i w' rows). cbv zeta.
  assert (HF' : Forall2 (row_of E (cfg_hist cfg) vk attrs) (replace_at i (RSMastic n0 k0' p0 j0, RSMastic n1 k1' p1 j1) R) (replace_at i w' rows)).
  { clear -HF Hr' Hi. revert i Hi. unfold replace_at. induction HF as [|x y l l' Hxy HF IH]; intros [|i] Hi; try discriminate; cbn [firstn skipn app]; constructor; try assumption. apply IH. exact Hi. }
  assert (Hil : i < length rows) by (apply nth_error_Some; congruence).
  assert (Hlen : length (replace_at i w' rows) = length rows) by (unfold replace_at; rewrite app_length, firstn_length; cbn [length]; rewrite skipn_length; lia).
  assert (Hrows : rows = firstn i rows ++ w :: skipn (S i) rows).
  { rewrite <- (firstn_skipn i rows) at 1. f_equal. apply nth_skipn_cons. exact Hw. }
  split; [exact HF'|]. split.
  - intros s0' s1' V0 V1. destruct (run_abm_exact E cfg (cfg_hist cfg) vk attrs eq_refl _ _ s0' s1' HF' Hq V0 V1) as (t0 & t1 & Hrun). exists t0, t1.
    rewrite Hlen in Hrun. rewrite Hrun.
    assert (Hp : existsb (fun w => negb (w_fit w) && negb (w_agree w)) (replace_at i w' rows) = false).
    { unfold replace_at. rewrite Hrows in Hpan. rewrite existsb_app in *. cbn [existsb] in *. rewrite Hag', Hag in *. rewrite !andb_false_r in *. exact Hpan. }
    rewrite Hp, andb_false_r. reflexivity.
  - intros e a attr j Hattr Hj. specialize (Hvals a attr j Hattr Hj).
    assert (Hke : kept (dbg E) w' = true) by (unfold kept; rewrite Hfit', Hag', Hfit, orb_true_r; reflexivity).
    assert (Hke0 : kept (dbg E) w = true) by (unfold kept; rewrite Hag, Hfit, orb_true_r; reflexivity).
    clear -Hvals Hke Hke0 Hw. unfold replace_at. revert i e Hw. induction rows as [|x rows IH]; intros [|i] [|e] Hw; try discriminate.
    + cbn. change (of_Z 0) with fzero. ring.
    + injection Hw as ->. cbn [firstn skipn app nth_error filter]. rewrite Hke, Hke0. cbn [Nat.ltb Nat.leb]. unfold cell. cbn [map fsum]. rewrite Hvals. ring.
    + cbn. change (of_Z 0) with fzero. ring.
    + change (firstn (S i) (x :: rows) ++ w' :: skipn (S (S i)) (x :: rows)) with (x :: (firstn i rows ++ w' :: skipn (S i) rows)). cbn [firstn filter]. change (S i <? S e) with (i <? e). specialize (IH i e Hw). destruct (kept (dbg E) x); [|exact IH].
      unfold cell in *. cbn [map fsum]. rewrite IH. ring.
Qed.
