(** Complete runs of plain metrics. *)
From Verif Require Import Base BaseFacts Field Util UtilFacts Env Prg Vidpf Merkle Collect Server Driver Modes
  SpecCollect SpecServer SpecDriver SpecMetrics SpecLevel SpecWhh SpecModes CollectFacts CollectInv ServerFacts DriverFacts MetricsFacts PmFacts LevelFacts WhhFacts WhhMain ModesFacts.

(** *** what a batch leaves alone *)
Definition frame (s t : server) : Prop :=
  s_poison t = s_poison s /\ s_id t = s_id s /\ c_len (s_coll t) = c_len (s_coll s) /\ c_vk (s_coll t) = c_vk (s_coll s) /\ c_reports (s_coll t) = c_reports (s_coll s).
Lemma pm_validate_frame E c sid a b c' v : pm_validate E c sid a b = Ret (c', v) -> exists m, c' = set_pm c m.
Proof. unfold pm_validate. intros H. destruct (b <? a); [discriminate|]. destruct (sid <? 0)%Z; [discriminate|]. destruct (negb _); [discriminate|]. bret H as rs Hrs. injection H as <- <-. eauto. Qed.
Lemma pm_batch_frame E cfg s0 s1 a b t0 t1 x : pm_batch E cfg s0 s1 a b = Ret (t0, t1, x) -> frame s0 t0 /\ frame s1 t1.
Proof.
  unfold pm_batch. intros H. bret H as [[u0 u1] [r0 r1]] Hc. destruct r0; try discriminate. destruct r1; try discriminate.
  bret H as z1 Hz1. bret H as z2 Hz2. bret H as [[v0 v1] [r0 r1]] Hc2. destruct r0; try discriminate. destruct r1; try discriminate.
  bret H as z3 Hz3. bret H as z4 Hz4. bret H as res Hr. injection H as <- <- _.
  apply call2_ret in Hc. destruct Hc as [C0 C1]. apply call2_ret in Hc2. destruct Hc2 as [D0 D1].
  assert (F : forall s u v q1 q2 ans1 ans2 p a' b', q1 = QPmValidate a' b' -> q2 = QPmResult p a' b' -> handle E s q1 = (u, Ret ans1) -> handle E u q2 = (v, Ret ans2) -> frame s v).
  { clear. intros s u v q1 q2 ans1 ans2 p a b -> -> H1 H2. apply handle_ret in H1. apply handle_ret in H2. destruct H1 as (_ & _ & c & H1 & ->). destruct H2 as (_ & _ & c' & H2 & ->).
    cbn [body set_coll s_coll s_id] in *. bret H1 as [c1 vv] Hv. injection H1 as -> _. bret H2 as [c2 [ag rj]] Hp. injection H2 as -> _.
    apply pm_validate_frame in Hv. destruct Hv as [m ->]. apply pm_result_shape in Hp. destruct Hp as [-> _]. repeat split. }
  split; eapply F; eauto.
Qed.

Lemma sum_histogram_eq len rs hist rej : length hist = len ->
  (forall j, j < len -> nth j hist 0%Z = fval (fsum (map (fun beta => nth j beta (of_Z 0)) (somes rs)))) ->
  rej = Z.of_nat (length (filter (fun o => match o with None => true | Some _ => false end) rs)) -> (hist, rej) = sum_histogram len rs.
Proof. intros Hl Hn ->. unfold sum_histogram. f_equal. apply nth_seq_map with (d := 0%Z); assumption. Qed.

Lemma prio_pair_part E len vk s0 s1 l1 l2 l3 : prio_pair E len vk s0 s1 0 (l1 ++ l2 ++ l3) -> prio_pair E len vk s0 s1 (length l1) l2.
Proof.
  intros (A & B & C & D & F & G & H & I & J). repeat (split; [assumption|]). intros k res Hk. apply (J (length l1 + k)).
  rewrite nth_error_app2 by lia. replace (length l1 + k - length l1) with k by lia. rewrite nth_error_app1; [exact Hk|]. apply nth_error_Some. congruence.
Qed.
Lemma prio_pair_frame E len vk s0 s1 t0 t1 rs : prio_pair E len vk s0 s1 0 rs -> frame s0 t0 -> frame s1 t1 -> prio_pair E len vk t0 t1 0 rs.
Proof.
  intros (A & B & C & D & F & G & H & I & J) (a0 & b0 & c0 & d0 & e0) (a1 & b1 & c1 & d1 & e1). unfold prio_pair. rewrite a0, a1, b0, b1, c0, c1, d0, d1, e0, e1.
  repeat (split; [assumption|]). exact J.
Qed.

Lemma pieces_cons {A} b (l : list A) : 0 < b -> l <> [] -> pieces b l = firstn b l :: pieces b (skipn b l).
Proof.
  intros Hb Hne. unfold pieces.
  assert (Hd : (length l + b - 1) / b = S ((length (skipn b l) + b - 1) / b)).
  { rewrite skipn_length. assert (0 < length l) by (destruct l; [contradiction|cbn; lia]). destruct (Nat.le_gt_cases b (length l)).
    - replace (length l + b - 1) with (length l - b + b - 1 + 1 * b) by lia. rewrite Nat.div_add by lia. lia.
    - replace (length l - b + b - 1) with (b - 1) by lia. rewrite (Nat.div_small (b - 1)) by lia. symmetry. apply (Nat.div_unique _ _ 1 (length l - 1)); lia. }
  rewrite Hd. cbn [seq map Nat.mul skipn]. f_equal. rewrite <- seq_shift, map_map. apply map_ext. intros k. f_equal.
  assert (Hs : forall x y (m : list A), skipn x (skipn y m) = skipn (y + x) m).
  { intros x y. induction y as [|y IH]; intros [|z m]; cbn [skipn Nat.add]; rewrite ?skipn_nil; auto. }
  rewrite Hs. f_equal.
Qed.
Lemma pieces_nil {A} b : 0 < b -> @pieces A b [] = [].
Proof. intros Hb. unfold pieces. cbn [length]. rewrite Nat.div_small by lia. reflexivity. Qed.

Lemma pm_batches_run E cfg vk all : hist_ok (cfg_hist cfg) = true -> 0 < cfg_query_batch cfg -> (Z.of_nat (length all) < 2 ^ 64)%Z ->
  forall fuel l1 rest s0 s1, all = l1 ++ rest -> length rest <= fuel -> prio_pair E (cfg_hist cfg) vk s0 s1 0 all ->
  exists t0 t1, pm_batches E cfg s0 s1 (length all) (steps fuel (length l1) (length all) (cfg_query_batch cfg)) =
    Ret (t0, t1, map (sum_histogram (cfg_hist cfg)) (pieces (cfg_query_batch cfg) rest)).
Proof.
  intros Hh Hb Hbig. set (b := cfg_query_batch cfg) in *.
  induction fuel as [|fuel IH]; intros l1 rest s0 s1 Hall Hf Hp; cbn [steps].
  - destruct rest; [|cbn in Hf; lia]. rewrite pieces_nil by exact Hb. cbn. eauto.
  - assert (Hll : length all = length l1 + length rest) by (rewrite Hall; apply app_length).
    destruct (length l1 <? length all) eqn:Hlt.
    2:{ apply Nat.ltb_ge in Hlt. destruct rest; [|cbn in Hll; lia]. rewrite pieces_nil by exact Hb. cbn. eauto. }
    apply Nat.ltb_lt in Hlt. cbn [pm_batches]. fold b.
    assert (Hr : rest = firstn b rest ++ skipn b rest) by (symmetry; apply firstn_skipn).
    assert (Hlw : length (firstn b rest) = Nat.min b (length rest)) by apply firstn_length.
    assert (Hne : firstn b rest <> []) by (intros Hc; rewrite Hc in Hlw; cbn in Hlw; lia).
    replace (Nat.min (length all) (length l1 + b)) with (length l1 + length (firstn b rest)) by lia.
    assert (Hp1 : prio_pair E (cfg_hist cfg) vk s0 s1 (length l1) (firstn b rest)).
    { apply prio_pair_part with (l3 := skipn b rest). rewrite <- Hr, <- Hall. exact Hp. }
    destruct (pm_batch_run E cfg vk s0 s1 (length l1) (firstn b rest) Hh Hne ltac:(lia) Hp1) as (t0 & t1 & hist & rej & Hrun & Hl & Hn & Hrej).
    destruct (pm_batch_frame _ _ _ _ _ _ _ _ _ Hrun) as [F0 F1]. rewrite Hrun. cbn [bind].
    destruct (IH (l1 ++ firstn b rest) (skipn b rest) t0 t1) as (u0 & u1 & Hu).
    { rewrite <- app_assoc, <- Hr. exact Hall. } { rewrite skipn_length. lia. } { eapply prio_pair_frame; eauto. }
    assert (Hst : steps fuel (length (l1 ++ firstn b rest)) (length all) b = steps fuel (length l1 + b) (length all) b).
    { rewrite app_length. destruct (Nat.le_gt_cases b (length rest)) as [Hle|Hgt]; [rewrite Hlw; f_equal; lia|].
      rewrite !(steps_spec cfg _ eq_refl) by lia. replace (length all - (length l1 + length (firstn b rest))) with 0 by lia. replace (length all - (length l1 + b)) with 0 by lia. rewrite Nat.div_small by lia. reflexivity. }
    rewrite Hst in Hu. rewrite Hu. cbn [bind]. exists u0, u1. rewrite (pieces_cons b rest); [|exact Hb|intros Hc; rewrite Hc in Hll; cbn in Hll; lia]. cbn [map].
    rewrite (sum_histogram_eq (cfg_hist cfg) (firstn b rest) hist rej Hl Hn Hrej). reflexivity.
Qed.
Lemma run_pm_exact E cfg vk rs s0 s1 : hist_ok (cfg_hist cfg) = true -> 0 < cfg_query_batch cfg -> (Z.of_nat (length rs) < 2 ^ 64)%Z ->
  prio_pair E (cfg_hist cfg) vk s0 s1 0 rs ->
  exists t0 t1, run_pm E cfg s0 s1 (length rs) = Ret (t0, t1, map (sum_histogram (cfg_hist cfg)) (pieces (cfg_query_batch cfg) rs)).
Proof.
  intros Hh Hb Hbig Hp. unfold run_pm, step_by. rewrite Hh, (proj2 (Nat.eqb_neq _ _)) by lia. cbn [negb bind].
  apply (pm_batches_run E cfg vk rs Hh Hb Hbig (length rs) [] rs s0 s1 eq_refl (Nat.le_refl _) Hp).
Qed.

(** *** one vote per report *)
Definition vote_vec (len : nat) (v : option nat) : option (list fld) := option_map (one_hot len) v.
Lemma votes_sum len j vs : j < len -> fsum (map (fun beta => nth j beta (of_Z 0)) (somes (map (vote_vec len) vs))) =
  of_Z (Z.of_nat (length (filter (fun v => match v with Some m => m =? j | None => false end) vs))).
Proof.
  intros Hj. unfold somes. induction vs as [|[m|] vs IH]; cbn [map concat app filter vote_vec option_map fsum]; [reflexivity| |exact IH].
  rewrite IH, (one_hot_nth len) by exact Hj. destruct (m =? j); cbn [length].
  - rewrite <- of_Z_add. f_equal. lia.
  - change (of_Z 0) with fzero. ring.
Qed.
Lemma vote_sum_histogram len vs : (Z.of_nat (length vs) < 2 ^ 64)%Z -> sum_histogram len (map (vote_vec len) vs) = vote_histogram len vs.
Proof.
  intros Hb. unfold sum_histogram, vote_histogram. f_equal.
  - apply map_ext_in. intros j Hj. apply in_seq in Hj. rewrite votes_sum by lia. rewrite fval_of_Z. apply Z.mod_small.
    assert (H : forall f : option nat -> bool, length (filter f vs) <= length vs) by (intros f; induction vs as [|x l IH]; [cbn; lia|cbn [filter]; cbn [length] in Hb; specialize (IH ltac:(lia)); destruct (f x); cbn [length]; lia]).
    specialize (H (fun v => match v with Some m => m =? j | None => false end)). unfold P. lia.
  - f_equal. clear. induction vs as [|[m|] vs IH]; cbn [map filter vote_vec option_map length]; [reflexivity|exact IH|rewrite IH; reflexivity].
Qed.
Lemma pieces_map {A B} (f : A -> B) b l : pieces b (map f l) = map (map f) (pieces b l).
Proof. unfold pieces. rewrite map_length, map_map. apply map_ext. intros k. rewrite skipn_map, firstn_map. reflexivity. Qed.

(** the uploads of honest and malicious clients *)
Lemma prio_reports shard len clients : (forall cl, In cl clients -> shard len (pc_bucket cl) (pc_nonce cl) (pc_rand cl) <> None) ->
  exists reports, mapM (gen_prio_report shard len) clients = Ret reports /\
    forall i cl pub i0 i1, nth_error clients i = Some cl -> shard len (pc_bucket cl) (pc_nonce cl) (pc_rand cl) = Some (pub, (i0, i1)) -> nth_error reports i = Some (PRPrio3 (pc_nonce cl) pub i0 i1).
Proof.
  induction clients as [|cl clients IH]; intros H; [exists []; split; [reflexivity|]; intros [|i]; discriminate|].
  destruct IH as (reports & H1 & H2); [intros c Hc; apply H; right; exact Hc|]. pose proof (H cl (or_introl eq_refl)) as Hs.
  destruct (shard len (pc_bucket cl) (pc_nonce cl) (pc_rand cl)) as [[pub [i0 i1]]|] eqn:Hsh; [|congruence].
  exists (PRPrio3 (pc_nonce cl) pub i0 i1 :: reports). cbn [mapM]. unfold gen_prio_report at 1. rewrite Hsh. cbn [unwrap bind fst snd]. rewrite H1. split; [reflexivity|].
  intros [|i] c p j0 j1 Hc He; [injection Hc as <-; rewrite Hsh in He; injection He as <- <- <-; reflexivity|]. exact (H2 i c p j0 j1 Hc He).
Qed.
Lemma prio_upload reports ch nonce pub i0 i1 : nth_error reports (ch_idx ch) = Some (PRPrio3 nonce pub i0 i1) -> (ch_malicious ch = true -> i1 <> []) ->
  make_upload reports ch = Ret (RSPrio3 nonce pub i0, RSPrio3 nonce pub (if ch_malicious ch then spoil i1 else i1)).
Proof.
  intros Hn Hne. unfold make_upload. unfold index at 1. rewrite Hn. cbn [bind to_shares]. destruct (ch_malicious ch); [|reflexivity].
  destruct i1 as [|x l]; [destruct (Hne eq_refl eq_refl)|]. reflexivity.
Qed.

Lemma main_pm_ok E shard len vk clients chs fuel cfg s0 s1 : (forall cl, In cl clients -> shard len (pc_bucket cl) (pc_nonce cl) (pc_rand cl) <> None) ->
  Forall (good_pm_choice E shard len vk clients) chs -> cfg_hist cfg = len -> hist_ok len = true -> clients <> [] -> 0 < cfg_query_batch cfg -> 0 < cfg_add_batch cfg ->
  length chs <= fuel -> (Z.of_nat (length chs) < 2 ^ 64)%Z ->
  s_poison s0 = false -> s_id s0 = 0%Z -> s_poison s1 = false -> s_id s1 = 1%Z ->
  exists t0 t1, main_pm fuel E shard cfg clients vk chs s0 s1 = Ret (t0, t1, map (vote_histogram len) (pieces (cfg_query_batch cfg) (pm_votes clients chs))).
Proof.
  intros Hsh Hch Hh Hist Hsome Hq Ha Hf Hbig P0 I0 P1 I1. destruct (prio_reports shard len clients Hsh) as (reports & Hrep & Hnth).
  assert (Hups : exists ups, mapM (make_upload reports) chs = Ret ups /\ Forall2 (fun ch u => exists cl, nth_error clients (ch_idx ch) = Some cl /\ p3_run E len vk (fst u) (snd u) (if ch_malicious ch then None else Some (one_hot len (pc_bucket cl)))) chs ups).
  { clear -Hch Hnth. induction Hch as [|ch chs (cl & pub & i0 & i1 & Hc & _ & Hs & Hne & Hr) Hch (ups & IH1 & IH2)]; [exists []; split; [reflexivity|constructor]|].
    eexists (_ :: ups). cbn [mapM]. rewrite (prio_upload _ _ _ _ _ _ (Hnth _ _ _ _ _ Hc Hs) Hne). cbn [bind]. rewrite IH1. split; [reflexivity|]. constructor; [|exact IH2]. exists cl. auto. }
  destruct Hups as (ups & Hups & Hruns).
  assert (Hreset : forall s, s_poison s = false -> handle E s (QReset vk len) = (set_coll s (coll_new len (s_id s) (s_bits s) vk), Ret ADone)).
  { intros s Hp. apply handle_ret. split; [reflexivity|]. split; [exact Hp|]. eexists. split; [|reflexivity]. cbn [body]. rewrite Hist. reflexivity. }
  set (u0 := set_coll s0 (coll_new len (s_id s0) (s_bits s0) vk)). set (u1 := set_coll s1 (coll_new len (s_id s1) (s_bits s1) vk)).
  assert (Hvl : length (map (vote_vec len) (pm_votes clients chs)) = length chs) by (unfold pm_votes; rewrite !map_length; reflexivity).
  destruct (run_pm_exact E cfg vk (map (vote_vec len) (pm_votes clients chs)) (with_reports u0 (map fst ups)) (with_reports u1 (map snd ups))) as (t0 & t1 & Hrun).
  { rewrite Hh. exact Hist. } { exact Hq. } { rewrite Hvl. exact Hbig. }
  { rewrite Hh. unfold prio_pair. cbn. split; [exact P0|]. split; [exact P1|]. split; [exact I0|]. split; [exact I1|]. do 4 (split; [reflexivity|]).
    intros k res Hk. unfold pm_votes in Hk. rewrite !nth_error_map' in *. destruct (nth_error chs k) as [ch|] eqn:Hc; [|discriminate]. cbn [option_map] in Hk. injection Hk as <-.
    apply Forall2_nth in Hruns. destruct Hruns as [Hl Hruns]. destruct (nth_error ups k) as [[r0 r1]|] eqn:Hu; [|apply nth_error_None in Hu; assert (k < length chs) by (apply nth_error_Some; congruence); lia].
    destruct (Hruns _ _ _ Hc Hu) as (cl & Hcl & Hr). cbn [fst snd] in Hr. exists true, r0, true, r1. cbn [option_map fst snd]. rewrite Hcl. destruct (ch_malicious ch); split; try reflexivity; split; try reflexivity; exact Hr. }
  rewrite Hvl in Hrun. exists t0, t1.
  unfold main_pm. rewrite Hh, Hist. cbn [negb]. destruct (length clients =? 0) eqn:Hz; [apply Nat.eqb_eq, length_zero_iff_nil in Hz; contradiction|]. rewrite Hrep. cbn [bind].
  unfold reset_servers. rewrite Hh. rewrite (proj2 (call2_done_ret _ _ _ _ _ _ _)) by (do 2 eexists; split; apply Hreset; assumption). cbn [bind]. fold u0 u1.
  rewrite (upload_spec fuel E cfg reports chs ups u0 u1 Ha Hf P0 P1 Hups). cbn [bind]. rewrite Hrun, Hh. do 2 f_equal. rewrite pieces_map, map_map. apply map_ext_in. intros l Hl.
  apply vote_sum_histogram. unfold pieces in Hl. apply in_map_iff in Hl. destruct Hl as (k & <- & _). rewrite firstn_length, skipn_length. unfold pm_votes. rewrite map_length. lia.
Qed.
