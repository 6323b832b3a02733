(** C61 for complete runs of attribute-based metrics. *)
From Verif Require Import Base BaseFacts Field Util UtilFacts Env Prg PrgFacts Vidpf SpecVidpf SpecTree SpecHash
  VidpfFacts VidpfEvalFacts VidpfTreeFacts VidpfTreeFacts2 VidpfTreeFacts3 VidpfTreeFacts4 VidpfPropFacts2 Merkle Collect Server Driver Modes
  SpecCollect SpecMetrics SpecLevel SpecWhh SpecModes SpecOne LevelFacts MetricsFacts ModesFacts ModesMain FlpFacts WhhMain OneFacts.

Lemma C61_row_lemma E len vk attrs r w : env_ok E -> (forall a, In a attrs -> a <> [] /\ both_sides attrs a) ->
  row_of E len vk attrs r w -> well_checked E len attrs r w -> kept true w = true ->
  exists alpha m, m < len /\ forall a attr j, nth_error attrs a = Some attr -> j < len ->
    fadd (comp a j (w_vals0 w)) (comp a j (w_vals1 w)) = if is_prefix attr alpha && (m =? j) then of_Z 1 else of_Z 0.
Proof.
  intros Hok Hat (ver0 & h0 & ver1 & h1 & T0 & T1 & _ & Hag) (n0 & k0 & p0 & j0 & n1 & k1 & p1 & j1 & -> & Ht0 & Ht1 & I0 & I1 & Hpub & Hnz & Hco & Hlast) Hk.
  unfold kept in Hk. cbn [negb orb] in Hk. apply andb_true_iff in Hk. destruct Hk as [Hfit Hagree]. apply Hag in Hagree. subst h1. clear Hag.
  cbn [fst snd tree_share] in T0, T1.
  destruct (eval_tree E k0 attrs len []) as [[[x0 b0] t0]|] eqn:E0; [|discriminate]. destruct (eval_tree E k1 attrs len []) as [[[x1 b1] t1]|] eqn:E1; [|discriminate].
  destruct (flp_query E len b0 p0 _ _ 2) as [y0|]; [|discriminate]. destruct (flp_query E len b1 p1 _ _ 2) as [y1|]; [|discriminate].
  injection T0 as X0 _ H0. injection T1 as X1 _ H1. rewrite X0, X1 in *. clear X0 X1.
  destruct (Hlast _ _ _ _ _ _ eq_refl eq_refl) as [Hcol Hone]. rewrite <- H1 in H0. specialize (Hcol H0). subst t1. destruct (Hone Hfit) as (m & Hm & Hb).
  destruct (C61_sound_lemma E k0 k1 len attrs [] _ b0 t0 _ b1 Hok Ht0 Ht1 I0 I1 Hpub (fun a Ha => proj1 (Hat a Ha)) E0 E1 Hnz Hco) as [alpha Halpha].
  exists alpha, m. split; [exact Hm|]. intros a attr j Ha Hj.
  destruct (C05_lemma _ _ _ _ _ _ _ _ _ _ _ Hok Ht0 Ht1 I0 I1 E0 E1) as (_ & _ & L0 & L1 & _).
  assert (Hlt : a < length attrs) by (apply nth_error_Some; congruence).
  destruct (nth_error (w_vals0 w) a) as [w0|] eqn:V0; [|apply nth_error_None in V0; lia]. destruct (nth_error (w_vals1 w) a) as [w1|] eqn:V1; [|apply nth_error_None in V1; lia].
  destruct (Halpha a attr w0 w1 Ha V0 V1) as (S0 & S1 & Hs). { right. apply (Hat attr). eapply nth_error_In. exact Ha. }
  unfold comp. rewrite (nth_error_nth _ _ [] V0), (nth_error_nth _ _ [] V1). unfold point_value in S0, S1, Hs. rewrite Hb in S0, S1, Hs.
  assert (Hol : length (one_hot len m) = len) by apply one_hot_length.
  assert (Hl : length w0 = len + 1 /\ length w1 = len + 1).
  { destruct (is_prefix attr alpha); rewrite ?app_length, ?repeat_length in S0, S1; rewrite Hol in S0, S1; cbn [length] in S0, S1; auto. }
  destruct Hl as [W0 W1]. destruct (nth_error w0 j) as [f0|] eqn:F0; [|apply nth_error_None in F0; lia]. destruct (nth_error w1 j) as [f1|] eqn:F1; [|apply nth_error_None in F1; lia].
  rewrite (nth_error_nth _ _ _ F0), (nth_error_nth _ _ _ F1). specialize (Hs j f0 f1 F0 F1). apply (nth_error_nth _ _ (of_Z 0)) in Hs. rewrite <- Hs.
  destruct (is_prefix attr alpha); cbn [andb].
  - rewrite app_nth1 by lia. rewrite one_hot_nth by exact Hj. destruct (Nat.eqb_spec j m) as [->|Hn]; [rewrite Nat.eqb_refl; reflexivity|]. rewrite (proj2 (Nat.eqb_neq m j)) by congruence. reflexivity.
  - apply nth_repeat.
Qed.

Definition counts_for (len : nat) (attrs : list (list bool)) (w : row) (v : option (list bool * nat)) : Prop :=
  vote_of w v /\ forall alpha m, v = Some (alpha, m) -> m < len /\ forall a attr j, nth_error attrs a = Some attr -> j < len ->
    fadd (comp a j (w_vals0 w)) (comp a j (w_vals1 w)) = if is_prefix attr alpha && (m =? j) then of_Z 1 else of_Z 0.
Lemma votes_exist E len vk attrs R rows : env_ok E -> (forall a, In a attrs -> a <> [] /\ both_sides attrs a) ->
  Forall2 (row_of E len vk attrs) R rows -> Forall2 (fun r w => kept true w = true -> well_checked E len attrs r w) R rows ->
  exists vs, Forall2 (counts_for len attrs) rows vs.
Proof.
  intros Hok Hat HF HW. induction HF as [|r w R rows Hr HF IH]; [exists []; constructor|].
  inversion HW as [|? ? ? ? Hw HW']; subst. destruct (IH HW') as [vs Hvs].
  destruct (kept true w) eqn:Hk.
  - destruct (C61_row_lemma E len vk attrs r w Hok Hat Hr (Hw eq_refl) Hk) as (alpha & m & Hm & Hv). exists (Some (alpha, m) :: vs). constructor; [|exact Hvs].
    split; [split; [discriminate|congruence]|]. intros alpha' m' He. injection He as <- <-. split; [exact Hm|exact Hv].
  - exists (None :: vs). constructor; [|exact Hvs]. split; [split; auto|]. discriminate.
Qed.
Lemma votes_table len attrs rows vs : Forall2 (counts_for len attrs) rows vs -> row_table true len attrs rows = tally_table len attrs (somes vs).
Proof.
  intros HF. unfold row_table, tally_table.
  assert (H : forall as' (f : nat -> list fld) s (g : list bool -> list fld), (forall a attr, nth_error as' a = Some attr -> f (s + a) = g attr) -> combine as' (map f (seq s (length as'))) = map (fun a => (a, g a)) as').
  { induction as' as [|x as' IH]; intros f s g H; [reflexivity|]. cbn [length seq map combine]. f_equal; [f_equal; rewrite <- (H 0 x eq_refl); f_equal; lia|]. apply IH. intros a attr Ha. replace (S s + a) with (s + S a) by lia. apply H. exact Ha. }
  apply H. intros a attr Ha. cbn [Nat.add]. apply map_ext_in. intros j Hj. apply in_seq in Hj. clear H. unfold cell, tally_bucket, somes.
  induction HF as [|w v rows vs [Hvote Hv] HF IH]; [reflexivity|]. cbn [map concat filter]. destruct v as [[alpha m]|].
  - destruct (kept true w) eqn:Hk; [|destruct Hvote as [_ Hvote]; discriminate (Hvote Hk)]. destruct (Hv _ _ eq_refl) as [_ Hc].
    cbn [map fsum app filter fst snd]. rewrite (Hc a attr j Ha ltac:(lia)), IH. destruct (is_prefix attr alpha && (m =? j)).
    + cbn [length]. rewrite <- of_Z_add. f_equal. lia.
    + change (of_Z 0) with fzero. ring.
  - destruct Hvote as [Hvote _]. rewrite (Hvote eq_refl). cbn [app]. exact IH.
Qed.

Lemma C61_run_lemma E cfg len vk attrs R rows s0 s1 :
  env_ok E -> dbg E = true -> cfg_hist cfg = len -> Forall2 (row_of E len vk attrs) R rows -> 0 < cfg_query_batch cfg ->
  existsb (fun w => negb (w_fit w) && negb (w_agree w)) rows = false ->
  untouched true len vk (map fst R) s0 -> untouched false len vk (map snd R) s1 ->
  (forall a, In a attrs -> a <> [] /\ both_sides attrs a) ->
  Forall2 (fun r w => kept true w = true -> well_checked E len attrs r w) R rows ->
  exists votes t0 t1, Forall2 vote_of rows votes /\ (forall alpha m, In (Some (alpha, m)) votes -> m < len) /\
    run_abm E cfg s0 s1 attrs (length rows) =
      Ret (t0, t1, map (fun e => tally_table len attrs (somes (firstn e votes))) (batch_ends (length rows) (cfg_query_batch cfg))).
Proof.
  intros Hok Hdbg Hlen HF Hq Hex U0 U1 Hat HW. destruct (votes_exist E len vk attrs R rows Hok Hat HF HW) as [vs Hvs].
  destruct (run_abm_exact E cfg len vk attrs Hlen R rows s0 s1 HF Hq U0 U1) as (t0 & t1 & H). exists vs, t0, t1. split; [|split].
  - clear -Hvs. induction Hvs as [|w v ws vs [Hv _] HF IH]; constructor; assumption.
  - intros alpha m Hin. clear -Hvs Hin. induction Hvs as [|w v ws vs [_ Hv] HF IH]; [destruct Hin|]. destruct Hin as [->|Hin]; [|auto]. apply (Hv _ _ eq_refl).
  - rewrite H, Hex, Hdbg. cbn [andb]. do 2 f_equal. apply map_ext. intros e. apply votes_table. apply forall2_firstn. exact Hvs.
Qed.
